(** Facts about Spec_AES.v: inverses of the steps and of the whole cipher, for every list of round keys. *)
From Verif Require Import Base BaseLemmas Spec_AES.
From Coq Require Import Btauto.
Open Scope Z_scope.

Lemma each_byte (p : Z -> bool) : forallb p (map Z.of_nat (seq 0 256)) = true -> forall x, is_byte x -> p x = true.
Proof.
  intros H x Hx. rewrite forallb_forall in H. apply H. apply in_map_iff. exists (Z.to_nat x). red in Hx.
  split; [lia|]. apply in_seq. lia.
Qed.

Ltac xbits := apply Z.bits_inj'; intros ? ?; rewrite ?Z.lxor_spec, ?Z.bits_0; btauto.

(** ** S-box *)
Lemma sbox_byte x : is_byte x -> is_byte (sbox x).
Proof.
  intros H. pose proof (each_byte (fun x => (0 <=? sbox x) && (sbox x <? 256)) ltac:(vm_compute; reflexivity) x H) as E.
  red. cbv beta in E. apply andb_prop in E. destruct E. lia.
Qed.
Lemma inv_sbox_byte x : is_byte x -> is_byte (inv_sbox x).
Proof.
  intros H. pose proof (each_byte (fun x => (0 <=? inv_sbox x) && (inv_sbox x <? 256)) ltac:(vm_compute; reflexivity) x H) as E.
  red. cbv beta in E. apply andb_prop in E. destruct E. lia.
Qed.
Lemma inv_sbox_sbox x : is_byte x -> inv_sbox (sbox x) = x.
Proof. intros H. apply Z.eqb_eq. exact (each_byte (fun x => inv_sbox (sbox x) =? x) ltac:(vm_compute; reflexivity) x H). Qed.
Lemma sbox_inv_sbox x : is_byte x -> sbox (inv_sbox x) = x.
Proof. intros H. apply Z.eqb_eq. exact (each_byte (fun x => sbox (inv_sbox x) =? x) ltac:(vm_compute; reflexivity) x H). Qed.
Lemma map_inv (f g : Z -> Z) s : (forall x, is_byte x -> f (g x) = x) -> bytes s -> map f (map g s) = s.
Proof. intros H. induction 1; cbn; [|rewrite H, IHForall]; auto. Qed.
Lemma map_bytes (f : Z -> Z) s : (forall x, is_byte x -> is_byte (f x)) -> bytes s -> bytes (map f s).
Proof. intros H. induction 1; cbn; constructor; auto. Qed.

(** ** MixColumns *)
Lemma gmul_bits_lxor n : forall a b c, gmul_bits n a (Z.lxor b c) = Z.lxor (gmul_bits n a b) (gmul_bits n a c).
Proof.
  induction n as [|n IH]; intros a b c; cbn [gmul_bits]; [reflexivity|].
  assert (Ho : Z.odd (Z.lxor b c) = xorb (Z.odd b) (Z.odd c)) by (rewrite <- !Z.bit0_odd; apply Z.lxor_spec).
  assert (Hd : Z.lxor b c / 2 = Z.lxor (b / 2) (c / 2)) by (rewrite <- !Z.div2_div, !Z.div2_spec; apply Z.shiftr_lxor).
  rewrite Ho, Hd, IH. destruct (Z.odd b), (Z.odd c); cbn [xorb]; xbits.
Qed.
Lemma gmul_lxor a b c : gmul a (Z.lxor b c) = Z.lxor (gmul a b) (gmul a c).
Proof. apply gmul_bits_lxor. Qed.
Lemma gmul_zero a : gmul a 0 = 0.
Proof. reflexivity. Qed.

Lemma four {A} (l : list A) : length l = 4%nat -> exists a b c d, l = [a; b; c; d].
Proof. destruct l as [|a [|b [|c [|d [|]]]]]; try discriminate. intros _. now exists a, b, c, d. Qed.

Lemma mix_column_xorl k u v : length u = 4%nat -> length v = 4%nat ->
  mix_column k (xorl u v) = xorl (mix_column k u) (mix_column k v).
Proof.
  intros Hu Hv. destruct (four u Hu) as (a & b & c & d & ->), (four v Hv) as (a' & b' & c' & d' & ->).
  unfold mix_column, xorl. cbn [map seq fold_left combine nth fst snd].
  rewrite !gmul_lxor. repeat (apply f_equal2; [xbits|]). reflexivity.
Qed.
Lemma mix_column_len k u : length (mix_column k u) = 4%nat.
Proof. reflexivity. Qed.

Lemma list_eqb_eq a b : (if list_eq_dec Z.eq_dec a b then true else false) = true -> a = b.
Proof. destruct (list_eq_dec Z.eq_dec a b); congruence. Qed.
Definition unit_col (k : nat) (x : Z) : list Z := firstn k (zeros 4) ++ [x] ++ zeros (3 - k).
Definition undoes1 (k k' : list Z) (x : Z) (i : nat) : bool :=
  if list_eq_dec Z.eq_dec (mix_column k (mix_column k' (unit_col i x))) (unit_col i x) then true else false.
Definition undoes (k k' : list Z) : bool :=
  forallb (fun x => forallb (undoes1 k k' x) (seq 0 4)) (map Z.of_nat (seq 0 256)).
Lemma undoes_unit k k' i x : undoes k k' = true -> (i < 4)%nat -> is_byte x ->
  mix_column k (mix_column k' (unit_col i x)) = unit_col i x.
Proof.
  unfold undoes. intros H Hi Hx. apply each_byte with (x := x) in H; auto. rewrite forallb_forall in H.
  apply list_eqb_eq. specialize (H i). unfold undoes1 in H. apply H. apply in_seq. clear H. lia.
Qed.
Lemma undoes_col k k' u : undoes k k' = true -> length u = 4%nat -> bytes u -> mix_column k (mix_column k' u) = u.
Proof.
  intros H Hu Hb. destruct (four u Hu) as (a & b & c & d & ->).
  inversion Hb as [|? ? Ha Hb1]; inversion Hb1 as [|? ? Hbb Hb2]; inversion Hb2 as [|? ? Hc Hb3]; inversion Hb3 as [|? ? Hd _]; subst.
  assert (E : [a; b; c; d] = xorl (unit_col 0 a) (xorl (unit_col 1 b) (xorl (unit_col 2 c) (unit_col 3 d)))).
  { unfold unit_col, xorl, zeros. cbn -[Z.lxor]. repeat (apply f_equal2; [rewrite ?Z.lxor_0_l, ?Z.lxor_0_r; reflexivity|]). reflexivity. }
  rewrite E at 1. rewrite !mix_column_xorl by reflexivity. rewrite !undoes_unit by (auto; lia). now rewrite <- E.
Qed.
Lemma mix_undone : undoes [14; 11; 13; 9] [2; 3; 1; 1] = true.
Proof. vm_compute. reflexivity. Qed.
Lemma unmix_undone : undoes [2; 3; 1; 1] [14; 11; 13; 9] = true.
Proof. vm_compute. reflexivity. Qed.

Lemma gmul_byte k x : In k [1; 2; 3; 9; 11; 13; 14] -> is_byte x -> is_byte (gmul k x).
Proof.
  intros Hk Hx.
  pose proof (each_byte (fun x => forallb (fun k => (0 <=? gmul k x) && (gmul k x <? 256)) [1; 2; 3; 9; 11; 13; 14]) ltac:(vm_compute; reflexivity) x Hx) as E.
  cbv beta in E. rewrite forallb_forall in E. specialize (E k Hk). apply andb_prop in E. red. destruct E. lia.
Qed.
Lemma byte_lxor a b : is_byte a -> is_byte b -> is_byte (Z.lxor a b).
Proof. unfold is_byte. apply (lxor_range 8). lia. Qed.
Lemma mix_column_bytes k u : (forall x, In x k -> In x [1; 2; 3; 9; 11; 13; 14]) -> length k = 4%nat ->
  length u = 4%nat -> bytes u -> bytes (mix_column k u).
Proof.
  intros Hk Lk Hu Hb. destruct (four u Hu) as (a & b & c & d & ->), (four k Lk) as (p & q & r & s & ->).
  inversion Hb as [|? ? Ha Hb1]; inversion Hb1 as [|? ? Hbb Hb2]; inversion Hb2 as [|? ? Hc Hb3]; inversion Hb3 as [|? ? Hd _]; subst.
  assert (G : forall m x, In m [p; q; r; s] -> is_byte x -> is_byte (gmul m x)) by (intros; apply gmul_byte; auto).
  assert (is_byte 0) by (red; lia).
  unfold mix_column. cbn -[gmul Z.lxor].
  repeat apply Forall_cons; try apply Forall_nil;
    repeat match goal with |- is_byte (Z.lxor _ _) => apply byte_lxor end; auto; apply G; auto; cbn; tauto.
Qed.

Section columns.
  Variables (f : list Z -> list Z).
  Hypothesis Hlen : forall u, length u = 4%nat -> length (f u) = 4%nat.
  Lemma concat_cols_len n : forall s, length s = (4 * n)%nat -> length (concat (map f (chunks 4 s))) = (4 * n)%nat.
  Proof.
    induction n as [|n IH]; intros s Hs; [destruct s; [reflexivity|discriminate]|].
    rewrite chunks_cons by (try lia; intros ->; discriminate). cbn [map concat].
    rewrite app_length, Hlen, IH by (rewrite ?firstn_length, ?skipn_length; lia). lia.
  Qed.
  Hypothesis Hbyte : forall u, length u = 4%nat -> bytes u -> bytes (f u).
  Lemma concat_cols_bytes n : forall s, length s = (4 * n)%nat -> bytes s -> bytes (concat (map f (chunks 4 s))).
  Proof.
    induction n as [|n IH]; intros s Hs Hb; [destruct s; [constructor|discriminate]|].
    rewrite chunks_cons by (try lia; intros ->; discriminate). cbn [map concat].
    apply Forall_app. split; [apply Hbyte|apply IH]; rewrite ?firstn_length, ?skipn_length; try lia.
    - now apply bytes_firstn.
    - now apply bytes_skipn.
  Qed.
End columns.
Lemma concat_cols_inv (f g : list Z -> list Z) n : (forall u, length u = 4%nat -> length (g u) = 4%nat) ->
  (forall u, length u = 4%nat -> bytes u -> f (g u) = u) ->
  forall s, length s = (4 * n)%nat -> bytes s -> concat (map f (chunks 4 (concat (map g (chunks 4 s))))) = s.
Proof.
  intros Hg Hfg. induction n as [|n IH]; intros s Hs Hb; [destruct s; [reflexivity|discriminate]|].
  rewrite (chunks_cons 4 s) by (try lia; intros ->; discriminate). cbn [map concat].
  rewrite chunks_app by (try lia; apply Hg; rewrite firstn_length; lia). cbn [map concat].
  rewrite Hfg by (try (rewrite firstn_length; lia); now apply bytes_firstn).
  rewrite IH by (try (rewrite skipn_length; lia); now apply bytes_skipn). apply firstn_skipn.
Qed.

Section state.
  Variable nb : nat.
  Variable offs : list nat.
  Hypothesis Hnb : (0 < nb)%nat.
  Hypothesis Hoffs : forall r, (nth r offs 0 <= nb)%nat.
  Definition st (s : list Z) : Prop := length s = (4 * nb)%nat /\ bytes s.

  Lemma sub_st s : st s -> st (sub_bytes s).
  Proof. intros [L B]. split; [unfold sub_bytes; now rewrite map_length|]. apply map_bytes; auto. exact sbox_byte. Qed.
  Lemma inv_sub_st s : st s -> st (inv_sub_bytes s).
  Proof. intros [L B]. split; [unfold inv_sub_bytes; now rewrite map_length|]. apply map_bytes; auto. exact inv_sbox_byte. Qed.
  Lemma sub_inv s : st s -> inv_sub_bytes (sub_bytes s) = s.
  Proof. intros [L B]. apply map_inv; auto. exact inv_sbox_sbox. Qed.
  Lemma inv_sub_inv s : st s -> sub_bytes (inv_sub_bytes s) = s.
  Proof. intros [L B]. apply map_inv; auto. exact sbox_inv_sbox. Qed.

  Lemma mix_st s : st s -> st (mix_columns s).
  Proof.
    intros [L B]. split; [apply concat_cols_len; auto; intros; apply mix_column_len|].
    apply (concat_cols_bytes _ ) with (n := nb); auto. intros u Hu Hb. apply mix_column_bytes; auto. cbn. tauto.
  Qed.
  Lemma inv_mix_st s : st s -> st (inv_mix_columns s).
  Proof.
    intros [L B]. split; [apply concat_cols_len; auto; intros; apply mix_column_len|].
    apply (concat_cols_bytes _ ) with (n := nb); auto. intros u Hu Hb. apply mix_column_bytes; auto. cbn. tauto.
  Qed.
  Lemma mix_inv s : st s -> inv_mix_columns (mix_columns s) = s.
  Proof.
    intros [L B]. apply (concat_cols_inv _ _ nb); auto.
    intros; apply undoes_col; [exact mix_undone|assumption|assumption].
  Qed.
  Lemma inv_mix_inv s : st s -> mix_columns (inv_mix_columns s) = s.
  Proof.
    intros [L B]. apply (concat_cols_inv _ _ nb); auto.
    intros; apply undoes_col; [exact unmix_undone|assumption|assumption].
  Qed.

  Lemma pick_st (p : nat -> nat) s : st s -> (forall i, (i < 4 * nb)%nat -> (p i < 4 * nb)%nat) ->
    st (map (fun i => nth (p i) s 0) (seq 0 (length s))).
  Proof.
    intros [L B] Hp. split; [now rewrite map_length, seq_length|].
    apply Forall_forall. intros x Hx. apply in_map_iff in Hx. destruct Hx as (i & <- & Hi). apply in_seq in Hi.
    apply (proj1 (Forall_forall _ _) B). apply nth_In. rewrite L. apply Hp. lia.
  Qed.
  Lemma nb_of s : st s -> (length s / 4)%nat = nb.
  Proof. intros [L _]. rewrite L, Nat.mul_comm. apply Nat.div_mul. lia. Qed.
  Lemma pos_ok (i c : nat) : (c < nb)%nat -> (i mod 4 + 4 * c < 4 * nb)%nat.
  Proof. intros. pose proof (Nat.mod_upper_bound i 4). lia. Qed.
  Lemma shift_st s : st s -> st (shift_rows offs s).
  Proof.
    intros H. unfold shift_rows. cbv zeta. rewrite (nb_of s H).
    apply (pick_st (fun i => i mod 4 + 4 * ((i / 4 + nth (i mod 4) offs 0) mod nb))%nat); auto.
    intros i _. apply pos_ok. apply Nat.mod_upper_bound. lia.
  Qed.
  Lemma inv_shift_st s : st s -> st (inv_shift_rows offs s).
  Proof.
    intros H. unfold inv_shift_rows. cbv zeta. rewrite (nb_of s H).
    apply (pick_st (fun i => i mod 4 + 4 * ((i / 4 + nb - nth (i mod 4) offs 0) mod nb))%nat); auto.
    intros i _. apply pos_ok. apply Nat.mod_upper_bound. lia.
  Qed.
  Lemma pick_nth (p : nat -> nat) (s : list Z) n i : (i < n)%nat -> nth i (map (fun i => nth (p i) s 0) (seq 0 n)) 0 = nth (p i) s 0.
  Proof.
    intros H. rewrite (nth_indep _ 0 ((fun i => nth (p i) s 0) 0%nat)) by now rewrite map_length, seq_length.
    rewrite (map_nth (fun i => nth (p i) s 0)), seq_nth by auto. reflexivity.
  Qed.
  Lemma pos_row i c : ((i mod 4 + 4 * c) mod 4 = i mod 4)%nat.
  Proof. rewrite (Nat.mul_comm 4), Nat.mod_add by lia. apply Nat.mod_mod. lia. Qed.
  Lemma pos_col i c : ((i mod 4 + 4 * c) / 4 = c)%nat.
  Proof.
    rewrite (Nat.mul_comm 4), Nat.div_add by lia.
    rewrite Nat.div_small by (apply Nat.mod_upper_bound; lia). lia.
  Qed.
  Lemma back1 c o : (c < nb)%nat -> (o <= nb)%nat -> (((c + nb - o) mod nb + o) mod nb = c)%nat.
  Proof.
    intros Hc Ho. rewrite Nat.add_mod_idemp_l by lia. replace (c + nb - o + o)%nat with (c + 1 * nb)%nat by lia.
    rewrite Nat.mod_add by lia. now apply Nat.mod_small.
  Qed.
  Lemma back2 c o : (c < nb)%nat -> (o <= nb)%nat -> (((c + o) mod nb + nb - o) mod nb = c)%nat.
  Proof.
    intros Hc Ho. rewrite <- Nat.add_sub_assoc by lia. rewrite Nat.add_mod_idemp_l by lia.
    replace (c + o + (nb - o))%nat with (c + 1 * nb)%nat by lia. rewrite Nat.mod_add by lia. now apply Nat.mod_small.
  Qed.
  Lemma div4 i : (i < 4 * nb)%nat -> (i / 4 < nb)%nat.
  Proof. intros. apply Nat.div_lt_upper_bound; lia. Qed.
  Lemma pos_id i : (i mod 4 + 4 * (i / 4) = i)%nat.
  Proof. rewrite (Nat.div_mod i 4) at 3 by lia. lia. Qed.
  Lemma shift_inv s : st s -> inv_shift_rows offs (shift_rows offs s) = s.
  Proof.
    intros H. pose proof (shift_st s H) as H'. destruct H as [L B].
    apply (list_ext 0); [destruct (inv_shift_st _ H'); lia|].
    intros i Hi. destruct (inv_shift_st _ H') as [L2 _]. rewrite L2 in Hi.
    unfold inv_shift_rows. cbv zeta. rewrite (nb_of _ H'), (proj1 H').
    rewrite (pick_nth (fun i => i mod 4 + 4 * ((i / 4 + nb - nth (i mod 4) offs 0) mod nb))%nat) by auto. cbv beta.
    unfold shift_rows. cbv zeta. rewrite (nb_of s (conj L B)), L.
    rewrite (pick_nth (fun i => i mod 4 + 4 * ((i / 4 + nth (i mod 4) offs 0) mod nb))%nat) by (apply pos_ok, Nat.mod_upper_bound; lia).
    cbv beta. rewrite pos_row, pos_col, back1 by (auto using div4). now rewrite pos_id.
  Qed.
  Lemma inv_shift_inv s : st s -> shift_rows offs (inv_shift_rows offs s) = s.
  Proof.
    intros H. pose proof (inv_shift_st s H) as H'. destruct H as [L B].
    apply (list_ext 0); [destruct (shift_st _ H'); lia|].
    intros i Hi. destruct (shift_st _ H') as [L2 _]. rewrite L2 in Hi.
    unfold shift_rows. cbv zeta. rewrite (nb_of _ H'), (proj1 H').
    rewrite (pick_nth (fun i => i mod 4 + 4 * ((i / 4 + nth (i mod 4) offs 0) mod nb))%nat) by auto. cbv beta.
    unfold inv_shift_rows. cbv zeta. rewrite (nb_of s (conj L B)), L.
    rewrite (pick_nth (fun i => i mod 4 + 4 * ((i / 4 + nb - nth (i mod 4) offs 0) mod nb))%nat) by (apply pos_ok, Nat.mod_upper_bound; lia).
    cbv beta. rewrite pos_row, pos_col, back2 by (auto using div4). now rewrite pos_id.
  Qed.

  Lemma xor_st s k : st s -> st k -> st (xorl s k).
  Proof. intros [L B] [L' B']. split; [rewrite length_xorl; lia|now apply bytes_xorl]. Qed.
  Lemma xor_inv s k : st s -> st k -> xorl (xorl s k) k = s.
  Proof. intros [L B] [L' B']. apply xorl_cancel_r. lia. Qed.

  (** the state before the rounds [ks] that give [c] *)
  Fixpoint undo (ks : list (list Z)) (c : list Z) : list Z :=
    match ks with
    | [] => c
    | [k] => inv_sub_bytes (inv_shift_rows offs (xorl c k))
    | k :: t => inv_sub_bytes (inv_shift_rows offs (inv_mix_columns (xorl (undo t c) k)))
    end.
  Lemma undo_cons k t c : t <> [] -> undo (k :: t) c = inv_sub_bytes (inv_shift_rows offs (inv_mix_columns (xorl (undo t c) k))).
  Proof. destruct t; [congruence|reflexivity]. Qed.
  Lemma rounds_cons k t s : t <> [] -> rounds offs (k :: t) s = rounds offs t (xorl (mix_columns (shift_rows offs (sub_bytes s))) k).
  Proof. destruct t; [congruence|reflexivity]. Qed.
  Lemma undo_st ks c : st c -> Forall st ks -> st (undo ks c).
  Proof.
    intros Hc. induction 1 as [|k t Hk Ht IH]; auto. destruct t as [|k' t].
    - apply inv_sub_st, inv_shift_st, xor_st; auto.
    - rewrite undo_cons by congruence. apply inv_sub_st, inv_shift_st, inv_mix_st, xor_st; auto.
  Qed.
  Lemma rounds_st ks : Forall st ks -> forall s, st s -> st (rounds offs ks s).
  Proof.
    induction 1 as [|k t Hk Ht IH]; intros s Hs; auto. destruct t as [|k' t].
    - apply xor_st; auto. apply shift_st, sub_st; auto.
    - rewrite rounds_cons by congruence. apply IH. apply xor_st; auto. apply mix_st, shift_st, sub_st; auto.
  Qed.
  Lemma rounds_undo ks c : st c -> Forall st ks -> rounds offs ks (undo ks c) = c.
  Proof.
    intros Hc. induction 1 as [|k t Hk Ht IH]; auto. destruct t as [|k' t].
    - cbn [rounds undo]. pose proof (xor_st _ _ Hc Hk) as X.
      rewrite inv_sub_inv, inv_shift_inv by auto using inv_shift_st. apply xor_inv; auto.
    - rewrite undo_cons, rounds_cons by congruence. pose proof (undo_st _ c Hc Ht) as U. pose proof (xor_st _ _ U Hk) as X.
      rewrite inv_sub_inv, inv_shift_inv, inv_mix_inv by auto using inv_shift_st, inv_mix_st. rewrite xor_inv by auto. exact IH.
  Qed.
  Lemma undo_rounds ks : Forall st ks -> forall s, st s -> undo ks (rounds offs ks s) = s.
  Proof.
    induction 1 as [|k t Hk Ht IH]; intros s Hs; auto. pose proof (sub_st s Hs) as S1. pose proof (shift_st _ S1) as S2.
    destruct t as [|k' t].
    - cbn [rounds undo]. rewrite xor_inv by auto. rewrite shift_inv by auto. now apply sub_inv.
    - pose proof (mix_st _ S2) as S3. rewrite undo_cons, rounds_cons by congruence. rewrite IH by (apply xor_st; auto).
      rewrite xor_inv, mix_inv, shift_inv by auto. now apply sub_inv.
  Qed.
  Lemma inv_rounds_undo : forall t k0 rest c, t <> [] ->
    inv_rounds offs (rev (removelast t) ++ k0 :: rest) (xorl c (last t [])) =
    match rest with [] => xorl (undo t c) k0 | _ => inv_rounds offs rest (inv_mix_columns (xorl (undo t c) k0)) end.
  Proof.
    induction t as [|k t IH]; intros k0 rest c Hne; [congruence|]. destruct t as [|k' t].
    - cbn [removelast rev app last undo]. destruct rest; reflexivity.
    - assert (Hne' : k' :: t <> []) by congruence.
      replace (removelast (k :: k' :: t)) with (k :: removelast (k' :: t)) by reflexivity.
      replace (last (k :: k' :: t) []) with (last (k' :: t) []) by reflexivity.
      cbn [rev]. rewrite <- app_assoc. cbn [app]. rewrite IH by auto. rewrite (undo_cons k (k' :: t)) by auto.
      destruct rest; reflexivity.
  Qed.
  Lemma inv_rijndael_undo k0 t c : t <> [] -> inv_rijndael offs (k0 :: t) c = xorl (undo t c) k0.
  Proof.
    intros Hne. unfold inv_rijndael.
    rewrite (app_removelast_last [] Hne) at 1. cbn [rev]. rewrite rev_app_distr. cbn [rev app].
    now rewrite (inv_rounds_undo t k0 [] c Hne).
  Qed.

  Definition keys_ok (ks : list (list Z)) : Prop := Forall st ks /\ (2 <= length ks)%nat.
  Theorem decrypt_encrypt ks s : keys_ok ks -> st s -> inv_rijndael offs ks (rijndael offs ks s) = s.
  Proof.
    intros [F N] Hs. destruct ks as [|k0 [|k1 t]]; cbn in N; try lia. inversion F; subst.
    rewrite inv_rijndael_undo by congruence. cbn [rijndael]. rewrite undo_rounds by (auto; now apply xor_st).
    now apply xor_inv.
  Qed.
  Theorem encrypt_decrypt ks c : keys_ok ks -> st c -> rijndael offs ks (inv_rijndael offs ks c) = c.
  Proof.
    intros [F N] Hc. destruct ks as [|k0 [|k1 t]]; cbn in N; try lia. inversion F; subst.
    rewrite inv_rijndael_undo by congruence. cbn [rijndael]. rewrite xor_inv by (auto; now apply undo_st).
    now apply rounds_undo.
  Qed.
  Lemma rijndael_st ks s : keys_ok ks -> st s -> st (rijndael offs ks s).
  Proof.
    intros [F N] Hs. destruct ks as [|k0 t]; cbn in N; [lia|]. inversion F; subst. apply rounds_st; auto. now apply xor_st.
  Qed.
  Lemma inv_rijndael_st ks s : keys_ok ks -> st s -> st (inv_rijndael offs ks s).
  Proof.
    intros [F N] Hs. destruct ks as [|k0 [|k1 t]]; cbn in N; try lia. inversion F; subst.
    rewrite inv_rijndael_undo by congruence. apply xor_st; auto. now apply undo_st.
  Qed.
End state.
