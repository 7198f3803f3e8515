(** Serpent: the statement lists of Model_SerpentGen.v are the published S-boxes and transformations; inverses. *)
From Verif Require Import Base BaseLemmas Model_Straight Spec_Serpent Model_SerpentGen Model_Serpent Proofs_AES.
From Coq Require Import Btauto.
Open Scope Z_scope.

Lemma Forall_firstn {A} (P : A -> Prop) n l : Forall P l -> Forall P (firstn n l).
Proof. intros F. rewrite <- (firstn_skipn n l) in F. now apply Forall_app in F. Qed.
(** ** bits *)
Lemma from_bits_bit n : forall b j, bit (from_bits n b) j = if (j <? n)%nat then b j else false.
Proof.
  induction n as [|n IH]; intros b j; cbn [from_bits]; [unfold bit; apply Z.bits_0|]. unfold bit in *.
  destruct j as [|j].
  - change (Z.of_nat 0) with 0. rewrite Z.add_comm, Z.testbit_0_r. reflexivity.
  - rewrite Nat2Z.inj_succ, Z.add_comm, Z.testbit_succ_r by lia. rewrite IH. destruct (Nat.ltb_spec j n), (Nat.ltb_spec (S j) (S n)); try reflexivity; lia.
Qed.
Lemma from_bits_range n : forall b, 0 <= from_bits n b < 2 ^ Z.of_nat n.
Proof.
  induction n as [|n IH]; intros b; cbn [from_bits]; [cbn; lia|]. specialize (IH (fun j => b (S j))). rewrite Nat2Z.inj_succ, Z.pow_succ_r by lia. destruct (b 0%nat); cbn [Z.b2z]; lia.
Qed.
Lemma bit_ext a b : is_word 32 a -> is_word 32 b -> (forall j, (j < 32)%nat -> bit a j = bit b j) -> a = b.
Proof. intros Ha Hb H. apply (bits_ext 32); try assumption; [lia|]. intros n Hn. specialize (H (Z.to_nat n) ltac:(lia)). unfold bit in H. now rewrite Z2Nat.id in H by lia. Qed.
Definition words4 (ws : list Z) : Prop := length ws = 4%nat /\ Forall (is_word 32) ws.
Lemma side_len f ws : length (side_by_side f ws) = 4%nat. Proof. reflexivity. Qed.
Lemma side_words f ws : words4 (side_by_side f ws).
Proof. split; [reflexivity|]. apply Forall_map, Forall_forall. intros i _. apply (from_bits_range 32). Qed.
Lemma side_bit f ws i j : (i < 4)%nat -> (j < 32)%nat -> bit (nth i (side_by_side f ws) 0) j = bit (f (nibble ws j)) i.
Proof.
  intros Hi Hj. unfold side_by_side. assert (E : nth i (map (fun i => from_bits 32 (fun j => bit (f (nibble ws j)) i)) (seq 0 4)) 0 = from_bits 32 (fun j => bit (f (nibble ws j)) i)).
  { do 4 (destruct i as [|i]; [reflexivity|]). lia. }
  rewrite E, from_bits_bit. destruct (Nat.ltb_spec j 32); [reflexivity|lia].
Qed.
Lemma nibble_range ws j : 0 <= nibble ws j < 16. Proof. apply (from_bits_range 4). Qed.
Lemma nib_ext a b : 0 <= a < 16 -> 0 <= b < 16 -> (forall i, (i < 4)%nat -> bit a i = bit b i) -> a = b.
Proof. intros Ha Hb H. apply (bits_ext 4); try (cbn; lia). intros n Hn. specialize (H (Z.to_nat n) ltac:(lia)). unfold bit in H. now rewrite Z2Nat.id in H by lia. Qed.
Lemma nibble_side f ws j : (j < 32)%nat -> (forall x, 0 <= x < 16 -> 0 <= f x < 16) -> nibble (side_by_side f ws) j = f (nibble ws j).
Proof.
  intros Hj Hf. apply nib_ext; [apply nibble_range|apply Hf, nibble_range|]. intros i Hi. unfold nibble at 1. rewrite from_bits_bit. destruct (Nat.ltb_spec i 4); [|lia]. now apply side_bit.
Qed.
Lemma words4_ext a b : words4 a -> words4 b -> (forall i j, (i < 4)%nat -> (j < 32)%nat -> bit (nth i a 0) j = bit (nth i b 0) j) -> a = b.
Proof.
  intros (La & Fa) (Lb & Fb) H. apply (list_ext 0); [lia|]. intros i Hi. apply bit_ext; [apply (proj1 (Forall_forall _ _) Fa), nth_In; lia|apply (proj1 (Forall_forall _ _) Fb), nth_In; lia|]. intros j Hj. apply H; lia.
Qed.
Lemma side_inv f g ws : words4 ws -> (forall x, 0 <= x < 16 -> 0 <= f x < 16 /\ g (f x) = x) -> side_by_side g (side_by_side f ws) = ws.
Proof.
  intros W H. apply words4_ext; [apply side_words|exact W|]. intros i j Hi Hj. rewrite side_bit by assumption. rewrite nibble_side by (try assumption; intros x Hx; now apply H).
  rewrite (proj2 (H _ (nibble_range ws j))). unfold nibble. rewrite from_bits_bit. destruct (Nat.ltb_spec i 4); [reflexivity|lia].
Qed.

(** ** bitwise programs *)
Fixpoint bitwise (e : sx) : bool :=
  match e with R _ => true | Xo a b | An a b | Or a b => bitwise a && bitwise b | No a => bitwise a | _ => false end.
Fixpoint bev (s : list bool) (e : sx) : bool :=
  match e with
  | R r => nth r s false | Xo a b => xorb (bev s a) (bev s b) | An a b => bev s a && bev s b | Or a b => bev s a || bev s b | No a => negb (bev s a)
  | _ => false
  end.
Fixpoint bupd (s : list bool) (i : nat) (b : bool) : list bool := match s, i with [], _ => [] | _ :: s, O => b :: s | c :: s, S i => c :: bupd s i b end.
Definition bexec (p : prog) (s : list bool) : list bool := fold_left (fun s (i : nat * sx) => bupd s (fst i) (bev s (snd i))) p s.
Lemma bupd_map (f : Z -> bool) v : forall s i, (i < length s)%nat -> map f (upd s i v) = bupd (map f s) i (f v).
Proof. induction s as [|x s IH]; intros i Hi; [cbn [length] in Hi; lia|]. destruct i as [|i]; [reflexivity|]. cbn [length] in Hi. cbn [upd map bupd]. rewrite <- IH by lia. reflexivity. Qed.
Lemma not_bit x j : 0 <= x -> (j < 32)%nat -> bit (wnot 32 x) j = negb (bit x j).
Proof.
  intros Hx Hj. unfold bit, wnot. rewrite testbit_mod by lia. destruct (Z.ltb_spec (Z.of_nat j) 32); [|lia]. replace (- x - 1) with (Z.lnot x) by (unfold Z.lnot; lia). cbn [andb]. apply Z.lnot_spec. lia.
Qed.
Lemma ev_bits s e : bitwise e = true -> Forall (is_word 32) s -> is_word 32 (ev 32 s e) /\ forall j, (j < 32)%nat -> bit (ev 32 s e) j = bev (map (fun x => bit x j) s) e.
Proof.
  intros H W. induction e; cbn [bitwise] in H; try discriminate; cbn [ev bev].
  - split; [|intros j Hj].
    + destruct (Nat.lt_ge_cases r (length s)); [apply (proj1 (Forall_forall _ _) W); now apply nth_In|rewrite nth_overflow by lia; red; lia].
    + replace false with (bit 0 j) by (unfold bit; apply Z.bits_0). symmetry. exact (map_nth (fun x => bit x j) s 0 r).
  - apply andb_prop in H. destruct H as [H1 H2]. destruct (IHe1 H1) as [W1 B1], (IHe2 H2) as [W2 B2]. split; [apply lxor_range; assumption || lia|]. intros j Hj. unfold bit in *. now rewrite Z.lxor_spec, B1, B2.
  - apply andb_prop in H. destruct H as [H1 H2]. destruct (IHe1 H1) as [W1 B1], (IHe2 H2) as [W2 B2]. split; [apply land_range; assumption || (red in W2; lia)|]. intros j Hj. unfold bit in *. now rewrite Z.land_spec, B1, B2.
  - apply andb_prop in H. destruct H as [H1 H2]. destruct (IHe1 H1) as [W1 B1], (IHe2 H2) as [W2 B2]. split; [apply lor_range; assumption || lia|]. intros j Hj. unfold bit in *. now rewrite Z.lor_spec, B1, B2.
  - destruct (IHe H) as [W1 B1]. split; [unfold wnot; red; apply Z.mod_pos_bound; lia|]. intros j Hj. rewrite not_bit by (try assumption; red in W1; lia). now rewrite B1.
Qed.
Definition in_range (n : nat) (p : prog) : bool := forallb (fun i => (fst i <? n)%nat && bitwise (snd i)) p.
Lemma exec_bits p : forall s, in_range (length s) p = true -> Forall (is_word 32) s ->
  length (exec 32 p s) = length s /\ Forall (is_word 32) (exec 32 p s) /\ forall j, (j < 32)%nat -> map (fun x => bit x j) (exec 32 p s) = bexec p (map (fun x => bit x j) s).
Proof.
  induction p as [|[i e] p IH]; intros s H W; [auto|]. cbn [in_range forallb] in H. apply andb_prop in H. destruct H as [H1 H]. apply andb_prop in H1. destruct H1 as [Hi He]. cbn [fst snd] in Hi, He. apply Nat.ltb_lt in Hi.
  destruct (ev_bits s e He W) as [We Be]. change (exec 32 ((i, e) :: p) s) with (exec 32 p (upd s i (ev 32 s e))).
  assert (W1 : Forall (is_word 32) (upd s i (ev 32 s e))).
  { apply Forall_forall. intros x Hx. apply (In_nth _ _ 0) in Hx. destruct Hx as (k & Hk & <-). rewrite length_upd in Hk. destruct (Nat.eq_dec k i) as [-> |N]; [rewrite nth_upd_same by lia; exact We|rewrite nth_upd_other by lia]. apply (proj1 (Forall_forall _ _) W). now apply nth_In. }
  destruct (IH (upd s i (ev 32 s e))) as (L2 & W2 & B2); [rewrite length_upd; exact H|exact W1|].
  split; [rewrite L2; apply length_upd|]. split; [exact W2|]. intros j Hj. rewrite (B2 j Hj). cbn [bexec fold_left fst snd]. rewrite bupd_map by exact Hi. rewrite Be by exact Hj. reflexivity.
Qed.
(** a program that computes [f] on the bits at every position *)
Definition computes (p : prog) (f : Z -> Z) : bool :=
  in_range 5 p && forallb (fun v => let s := map (fun i => bit v i) (seq 0 4) ++ [false] in
    forallb (fun i => Bool.eqb (nth i (bexec p s) false) (bit (f v) i)) (seq 0 4)) (map Z.of_nat (seq 0 16)).
Lemma on4_ok p f ws : computes p f = true -> words4 ws -> on4 p ws = side_by_side f ws.
Proof.
  intros H (L & W). apply andb_prop in H. destruct H as [H1 H2]. unfold on4.
  destruct (exec_bits p (ws ++ [0])) as (L1 & W1 & B1); [rewrite app_length, L; exact H1|apply Forall_app; split; [exact W|constructor; [red; lia|constructor]]|].
  rewrite app_length, L in L1. cbn in L1. apply words4_ext; [split; [rewrite firstn_length; lia|now apply Forall_firstn]|apply side_words|].
  intros i j Hi Hj. rewrite side_bit by assumption. assert (E : nth i (firstn 4 (exec 32 p (ws ++ [0]))) 0 = nth i (exec 32 p (ws ++ [0])) 0) by (rewrite <- (firstn_skipn 4 (exec 32 p (ws ++ [0]))) at 2; rewrite app_nth1 by (rewrite firstn_length; lia); reflexivity).
  rewrite E. assert (E2 : bit (nth i (exec 32 p (ws ++ [0])) 0) j = nth i (map (fun x => bit x j) (exec 32 p (ws ++ [0]))) false).
  { replace false with (bit 0 j) by (unfold bit; apply Z.bits_0). symmetry. apply (map_nth (fun x => bit x j)). }
  rewrite E2, B1 by exact Hj. rewrite map_app. rewrite forallb_forall in H2. specialize (H2 (nibble ws j)).
  assert (IN : In (nibble ws j) (map Z.of_nat (seq 0 16))) by (apply in_map_iff; pose proof (nibble_range ws j); exists (Z.to_nat (nibble ws j)); split; [lia|apply in_seq; lia]).
  specialize (H2 IN). cbv zeta in H2. rewrite forallb_forall in H2. specialize (H2 i ltac:(apply in_seq; lia)). apply Bool.eqb_prop in H2. rewrite <- H2. f_equal. f_equal. f_equal.
  - apply (nth_ext _ _ false false); [rewrite !map_length, seq_length; exact L|]. intros k Hk. rewrite map_length, L in Hk. replace false with (bit 0 j) at 1 by (unfold bit; apply Z.bits_0). rewrite (map_nth (fun x => bit x j)).
    rewrite (nth_indep _ false (bit (nibble ws j) 0)) by (rewrite map_length, seq_length; exact Hk). rewrite (map_nth (fun i => bit (nibble ws j) i)), seq_nth by exact Hk. cbn [Nat.add]. unfold nibble. rewrite from_bits_bit. destruct (Nat.ltb_spec k 4); [reflexivity|lia].
  - cbn [map]. f_equal. unfold bit. apply Z.bits_0.
Qed.
Lemma boxes : forallb (fun k => computes (nth k [Sb0_prog; Sb1_prog; Sb2_prog; Sb3_prog; Sb4_prog; Sb5_prog; Sb6_prog; Sb7_prog] []) (S_box k)
    && computes (nth k [Ib0_prog; Ib1_prog; Ib2_prog; Ib3_prog; Ib4_prog; Ib5_prog; Ib6_prog; Ib7_prog] []) (S_inv k)) (seq 0 8) = true.
Proof. vm_compute. reflexivity. Qed.
Lemma Sb_ok k ws : (k < 8)%nat -> words4 ws -> Sb k ws = side_by_side (S_box k) ws.
Proof. intros Hk W. apply on4_ok; [|exact W]. pose proof boxes as B. rewrite forallb_forall in B. specialize (B k ltac:(apply in_seq; lia)). apply andb_prop in B. apply B. Qed.
Lemma Ib_ok k ws : (k < 8)%nat -> words4 ws -> Ib k ws = side_by_side (S_inv k) ws.
Proof. intros Hk W. apply on4_ok; [|exact W]. pose proof boxes as B. rewrite forallb_forall in B. specialize (B k ltac:(apply in_seq; lia)). apply andb_prop in B. apply B. Qed.
Lemma box_inv : forallb (fun k => forallb (fun x => (0 <=? S_box k x) && (S_box k x <? 16) && (S_inv k (S_box k x) =? x) && (0 <=? S_inv k x) && (S_inv k x <? 16) && (S_box k (S_inv k x) =? x)) (map Z.of_nat (seq 0 16))) (seq 0 8) = true.
Proof. vm_compute. reflexivity. Qed.
Lemma boxes_inverse k ws : (k < 8)%nat -> words4 ws ->
  side_by_side (S_inv k) (side_by_side (S_box k) ws) = ws /\ side_by_side (S_box k) (side_by_side (S_inv k) ws) = ws.
Proof.
  intros Hk W. pose proof box_inv as B. rewrite forallb_forall in B. specialize (B k ltac:(apply in_seq; lia)). rewrite forallb_forall in B.
  assert (H : forall x, 0 <= x < 16 -> (0 <= S_box k x < 16 /\ S_inv k (S_box k x) = x) /\ (0 <= S_inv k x < 16 /\ S_box k (S_inv k x) = x)).
  { intros x Hx. specialize (B x ltac:(apply in_map_iff; exists (Z.to_nat x); split; [lia|apply in_seq; lia])). lia. }
  split; apply side_inv; try exact W; intros x Hx; apply (H x Hx).
Qed.

(** ** the linear transformation *)
Lemma rotl32_parts x n : is_word 32 x -> 0 < n < 32 -> exists a b, 0 <= a < 2 ^ (32 - n) /\ 0 <= b < 2 ^ n /\ x = b * 2 ^ (32 - n) + a /\ rotl32 x n = a * 2 ^ n + b.
Proof.
  intros Hx Hn. red in Hx. exists (x mod 2 ^ (32 - n)), (x / 2 ^ (32 - n)). pose proof (Z.pow_pos_nonneg 2 (32 - n) ltac:(lia) ltac:(lia)) as P1. pose proof (Z.pow_pos_nonneg 2 n ltac:(lia) ltac:(lia)) as P2.
  assert (PP : 2 ^ 32 = 2 ^ (32 - n) * 2 ^ n) by (rewrite <- Z.pow_add_r by lia; f_equal; lia).
  split; [apply Z.mod_pos_bound; lia|]. split; [split; [apply Z.div_pos; lia|apply Z.div_lt_upper_bound; lia]|]. split; [rewrite Z.mul_comm; apply Z.div_mod; lia|].
  unfold rotl32. f_equal. rewrite PP. rewrite Z.mul_mod_distr_r by lia. reflexivity.
Qed.
Lemma rotl32_range x n : is_word 32 x -> 0 < n < 32 -> is_word 32 (rotl32 x n).
Proof.
  intros Hx Hn. destruct (rotl32_parts x n Hx Hn) as (a & b & Ha & Hb & _ & ->). red. assert (PP : 2 ^ 32 = 2 ^ (32 - n) * 2 ^ n) by (rewrite <- Z.pow_add_r by lia; f_equal; lia). rewrite PP. nia.
Qed.
Lemma rotr32_range x n : is_word 32 x -> 0 < n < 32 -> is_word 32 (rotr32 x n). Proof. intros. apply rotl32_range; [assumption|lia]. Qed.
Lemma rot_back x n : is_word 32 x -> 0 < n < 32 -> rotr32 (rotl32 x n) n = x.
Proof.
  intros Hx Hn. destruct (rotl32_parts x n Hx Hn) as (a & b & Ha & Hb & Ex & E). rewrite E. unfold rotr32, rotl32. replace (32 - (32 - n)) with n by lia.
  pose proof (Z.pow_pos_nonneg 2 n ltac:(lia) ltac:(lia)) as P2. assert (PP : 2 ^ 32 = 2 ^ n * 2 ^ (32 - n)) by (rewrite <- Z.pow_add_r by lia; f_equal; lia).
  rewrite PP, Z.mul_mod_distr_r by (apply Z.pow_nonzero; lia). 
  assert (M : (a * 2 ^ n + b) mod 2 ^ n = b) by (rewrite Z.add_comm, Z.mod_add, Z.mod_small by lia; reflexivity).
  assert (D : (a * 2 ^ n + b) / 2 ^ n = a) by (rewrite Z.div_add_l, Z.div_small by lia; lia). rewrite M, D. lia.
Qed.
Lemma rot_forth x n : is_word 32 x -> 0 < n < 32 -> rotl32 (rotr32 x n) n = x.
Proof. intros Hx Hn. pose proof (rot_back x (32 - n) Hx ltac:(lia)) as E. unfold rotr32 in E at 1. replace (32 - (32 - n)) with n in E by lia. exact E. Qed.
Lemma wrotl_rotl x n : is_word 32 x -> 0 < n < 32 -> wrotl 32 x n = rotl32 x n.
Proof.
  intros Hx Hn. destruct (rotl32_parts x n Hx Hn) as (a & b & Ha & Hb & Ex & E). unfold rotl32 in E. unfold wrotl, wshl, wshr, rotl32. rewrite Z.shiftl_mul_pow2, Z.shiftr_div_pow2 by lia.
  assert (D : x / 2 ^ (32 - n) = b) by (rewrite Ex, Z.div_add_l, Z.div_small by (try apply Z.pow_nonzero; lia); lia). rewrite D in *.
  assert (M : (x * 2 ^ n) mod 2 ^ 32 = a * 2 ^ n) by lia. rewrite M. rewrite <- Z.shiftl_mul_pow2 by lia. rewrite Z.lor_comm, lor_shiftl_add by lia. rewrite Z.shiftl_mul_pow2 by lia. lia.
Qed.
Lemma wrotr_rotr x n : is_word 32 x -> 0 < n < 32 -> wrotr 32 x n = rotr32 x n.
Proof.
  intros Hx Hn. unfold rotr32. rewrite <- wrotl_rotl by (try assumption; lia). unfold wrotl, wrotr. replace (32 - (32 - n)) with n by lia. apply Z.lor_comm.
Qed.
Lemma wshl_shl x n : 0 <= n -> wshl 32 x n = shl32 x n. Proof. intros. unfold wshl, shl32. now rewrite Z.shiftl_mul_pow2. Qed.
Lemma shl32_range x n : is_word 32 (shl32 x n). Proof. red. unfold shl32. apply Z.mod_pos_bound. lia. Qed.
Lemma xor3_range a b c : is_word 32 a -> is_word 32 b -> is_word 32 c -> is_word 32 (xor3 a b c).
Proof. intros. unfold xor3. apply lxor_range; [lia|apply lxor_range; [lia|assumption|assumption]|assumption]. Qed.
Lemma xor3_assoc a b c : Z.lxor a (Z.lxor b c) = xor3 a b c. Proof. unfold xor3. now rewrite Z.lxor_assoc. Qed.
Lemma xor3_twice a b c : xor3 (xor3 a b c) b c = a. Proof. unfold xor3. xbits. Qed.
Ltac wrd := repeat first [assumption | apply xor3_range | apply shl32_range | apply rotl32_range; [|lia] | apply rotr32_range; [|lia]].
Lemma words4_cases ws : words4 ws -> exists a b c d, ws = [a; b; c; d] /\ is_word 32 a /\ is_word 32 b /\ is_word 32 c /\ is_word 32 d.
Proof.
  intros (L & F). do 4 (destruct ws as [|? ws]; [discriminate L|]). destruct ws; [|discriminate L]. do 4 eexists. split; [reflexivity|]. repeat match goal with H : Forall _ (_ :: _) |- _ => inversion H; clear H; subst end. auto.
Qed.
Lemma words4_mk a b c d : is_word 32 a -> is_word 32 b -> is_word 32 c -> is_word 32 d -> words4 [a; b; c; d].
Proof. intros. split; [reflexivity|]. repeat (apply Forall_cons; [assumption|]). apply Forall_nil. Qed.
Lemma LT_words ws : words4 ws -> words4 (LT ws).
Proof. intros W. destruct (words4_cases ws W) as (a & b & c & d & -> & ? & ? & ? & ?). cbn [LT]. cbv zeta. apply words4_mk; wrd. Qed.
Lemma LTi_words ws : words4 ws -> words4 (LT_inv ws).
Proof. intros W. destruct (words4_cases ws W) as (a & b & c & d & -> & ? & ? & ? & ?). cbn [LT_inv]. cbv zeta. apply words4_mk; wrd. Qed.
Lemma LT_ok ws : words4 ws -> LinearTransform ws = LT ws.
Proof.
  intros W. destruct (words4_cases ws W) as (a & b & c & d & -> & ? & ? & ? & ?). unfold LinearTransform, on4, LinearTransform_prog, exec. cbn [app fold_left exec1 fst snd upd ev nth firstn LT].
  rewrite !xor3_assoc, !wshl_shl by lia. rewrite !(wrotl_rotl a), !(wrotl_rotl c) by (try assumption; lia). cbv zeta.
  rewrite !(wrotl_rotl (xor3 b _ _)), !(wrotl_rotl (xor3 d _ _)) by (wrd; lia). rewrite !wrotl_rotl by (wrd; lia). reflexivity.
Qed.
Lemma LTi_ok ws : words4 ws -> InverseTransform ws = LT_inv ws.
Proof.
  intros W. destruct (words4_cases ws W) as (a & b & c & d & -> & ? & ? & ? & ?). unfold InverseTransform, on4, InverseTransform_prog, exec. cbn [app fold_left exec1 fst snd upd ev nth firstn LT_inv].
  rewrite !xor3_assoc, !wshl_shl by lia. rewrite !(wrotr_rotr a), !(wrotr_rotr b), !(wrotr_rotr c), !(wrotr_rotr d) by (try assumption; lia). cbv zeta.
  rewrite !wrotr_rotr by (wrd; lia). reflexivity.
Qed.
Lemma LT_back ws : words4 ws -> LT_inv (LT ws) = ws.
Proof.
  intros W. destruct (words4_cases ws W) as (a & b & c & d & -> & ? & ? & ? & ?). cbn [LT LT_inv]. cbv zeta.
  rewrite !(rot_back (xor3 (rotl32 c 3) _ _)), !(rot_back (xor3 (rotl32 a 13) _ _)) by (wrd; lia). rewrite !xor3_twice.
  rewrite !(rot_back (xor3 d _ _)), !(rot_back (xor3 b _ _)) by (wrd; lia). rewrite !xor3_twice. rewrite !rot_back by (assumption || lia). reflexivity.
Qed.
Lemma LT_forth ws : words4 ws -> LT (LT_inv ws) = ws.
Proof.
  intros W. destruct (words4_cases ws W) as (a & b & c & d & -> & ? & ? & ? & ?). cbn [LT LT_inv]. cbv zeta.
  rewrite !(rot_forth (xor3 (rotr32 a 5) _ _)), !(rot_forth (xor3 (rotr32 c 22) _ _)) by (wrd; lia). rewrite !xor3_twice.
  rewrite !(rot_forth b), !(rot_forth d) by (assumption || lia). rewrite !xor3_twice. rewrite !rot_forth by (assumption || lia). reflexivity.
Qed.
