(** Groups of four rounds, the whole programs. *)
From Verif Require Import BaseLemmas Spec_ChaCha Spec_Threefish Model_Straight Model_ThreefishGen Model_Threefish Proofs_Threefish.
Open Scope Z_scope.
Opaque plus rotl Z.lxor.

Lemma ext_key_len key : length (ext_key key) = S (length key). Proof. unfold ext_key. rewrite app_length. cbn [length]. lia. Qed.
Lemma ext_tweak_len tw : length (ext_tweak tw) = S (length tw). Proof. unfold ext_tweak. rewrite app_length. cbn [length]. lia. Qed.

Lemma mix_len rs : forall v, length (mix_words rs v) = length v.
Proof. induction rs as [|r rs IH]; intros [|x [|y v]]; cbn [mix_words length]; auto. Qed.
Lemma add_words_len a : forall b, length b = length a -> length (add_words a b) = length a.
Proof. intros b H. unfold add_words. rewrite map_length, combine_length. lia. Qed.
Section group.
Variable F : tfish.
Hypothesis Hn : (3 <= f_n F)%nat.
Hypothesis Hpi : length (f_pi F) = f_n F.
Hypothesis H4 : pi_pow F 4 = seq 0 (f_n F).
Hypothesis H1 : pi_pow F 1 = f_pi F.
Hypothesis first_F : forall rs, length rs = (f_n F / 2)%nat -> first_ok (f_n F) rs.
Variables g g' : list Z * list (nat * nat * Z).
Hypothesis R0 : fst g = nth 0 (f_rots F) [] /\ length (fst g) = (f_n F / 2)%nat.
Hypothesis R1 : fst g' = nth 4 (f_rots F) [] /\ length (fst g') = (f_n F / 2)%nat.
Hypothesis P0 : concat (map mixp (snd g)) = part (f_n F / 2) 0 (snd g) ++ part (f_n F / 2) 1 (snd g) ++ part (f_n F / 2) 2 (snd g).
Hypothesis P1 : concat (map mixp (snd g')) = part (f_n F / 2) 0 (snd g') ++ part (f_n F / 2) 1 (snd g') ++ part (f_n F / 2) 2 (snd g').
Hypothesis T0 : three_ok F g 0.
Hypothesis T1 : three_ok F g' 4.

Lemma view_seq c : length c = f_n F -> view (seq 0 (f_n F)) c = c.
Proof.
  intros H. unfold view. apply (list_ext 0).
  - now rewrite map_length, seq_length.
  - intros i Hi. rewrite map_length, seq_length in Hi. rewrite (nth_indep _ 0 (nth O c 0)) by (now rewrite map_length, seq_length).
    rewrite (map_nth (fun i => nth i c 0)), seq_nth by lia. reflexivity.
Qed.
Lemma subkey_len key tw s c : length (subkey F key tw s c) = f_n F.
Proof. unfold subkey. now rewrite map_length, seq_length. Qed.
Lemma tf_round_len key tw v d : length (tf_round F key tw v d) = f_n F.
Proof. unfold tf_round. now rewrite map_length. Qed.

Lemma group key tw rest s x G z : length key = f_n F -> length tw = 2%nat -> length x = f_n F ->
  (G, z) = (if Nat.even s then (g, 0%nat) else (g', 4%nat)) ->
  exec 64 (seg (f_n F) G s) (x ++ ext_key key ++ ext_tweak tw ++ rest) =
  fold_left (tf_round F key tw) (seq (4 * s) 4) x ++ ext_key key ++ ext_tweak tw ++ rest.
Proof.
  intros Hk Ht Hx EG.
  assert (Hz : (z < 5)%nat /\ forall k, (k < 4)%nat -> ((4 * s + k) mod 8 = z + k)%nat).
  { destruct (Nat.even s) eqn:E; injection EG as -> ->.
    - apply Nat.even_spec in E as [h ->]. split; [lia|]. intros k Hk4. replace (4 * (2 * h) + k)%nat with (k + h * 8)%nat by lia. rewrite Nat.mod_add by lia. apply Nat.mod_small. lia.
    - assert (O : Nat.odd s = true) by (rewrite <- Nat.negb_even, E; reflexivity). apply Nat.odd_spec in O as [h ->]. split; [lia|].
      intros k Hk4. replace (4 * (2 * h + 1) + k)%nat with ((4 + k) + h * 8)%nat by lia. rewrite Nat.mod_add by lia. apply Nat.mod_small. lia. }
  destruct Hz as [Hz Hd].
  assert (A : fst G = nth z (f_rots F) [] /\ length (fst G) = (f_n F / 2)%nat /\ three_ok F G z /\
    concat (map mixp (snd G)) = part (f_n F / 2) 0 (snd G) ++ part (f_n F / 2) 1 (snd G) ++ part (f_n F / 2) 2 (snd G)).
  { destruct (Nat.even s); injection EG as -> ->; [destruct R0|destruct R1]; auto. }
  destruct A as (A1 & A2 & A3 & A4).
  unfold seg. rewrite A4. rewrite exec_app.
  set (t := ext_key key ++ ext_tweak tw ++ rest).
  set (co := if (s =? 0)%nat then None else Some (Z.of_nat s)).
  change (concat (map (fun p => injmix (f_n F) s co (fst p) (snd p)) (combine (seq 0 (length (fst G))) (fst G))))
    with (first (f_n F) (fun i => (s + i) mod S (f_n F))%nat (s mod 3) ((s + 1) mod 3) co (fst G)).
  rewrite (first_F _ A2 _ _ _ _ (Z.of_nat s)); [|exact Hx|unfold co; destruct (Nat.eqb_spec s 0) as [->|]; reflexivity].
  assert (ES : map (sword (f_n F) (fun i => nth ((s + i) mod S (f_n F)) t 0) (nth (S (f_n F) + s mod 3) t 0) (nth (S (f_n F) + (s + 1) mod 3) t 0) (Z.of_nat s)) (seq 0 (f_n F))
    = subkey F key tw s (Z.of_nat s)).
  { unfold subkey. apply map_ext_in. intros i _. unfold sword, subword, t. cbv zeta.
    assert (B : ((s + i) mod S (f_n F) < S (f_n F))%nat) by (apply Nat.mod_upper_bound; lia).
    assert (B1 : (s mod 3 < 3)%nat) by (apply Nat.mod_upper_bound; lia).
    assert (B2 : ((s + 1) mod 3 < 3)%nat) by (apply Nat.mod_upper_bound; lia).
    rewrite (app_nth1 (ext_key key)) by (rewrite ext_key_len; lia).
    rewrite !(app_nth2 (ext_key key)) by (rewrite ext_key_len; lia). rewrite ext_key_len, Hk.
    replace (S (f_n F) + s mod 3 - S (f_n F))%nat with (s mod 3)%nat by lia.
    replace (S (f_n F) + (s + 1) mod 3 - S (f_n F))%nat with ((s + 1) mod 3)%nat by lia.
    rewrite !app_nth1 by (rewrite ext_tweak_len; lia). reflexivity. }
  rewrite ES. clear ES.
  set (c1 := mix_words (fst G) (add_words x (subkey F key tw s (Z.of_nat s)))).
  assert (L1 : length c1 = f_n F) by (unfold c1; rewrite mix_len, add_words_len; [exact Hx|now rewrite subkey_len]).
  assert (V1 : view (pi_pow F 1) c1 = tf_round F key tw x (4 * s)).
  { rewrite H1. unfold tf_round, view. cbv zeta.
    replace ((4 * s) mod 4)%nat with 0%nat by (rewrite Nat.mul_comm; symmetry; apply Nat.mod_mul; lia).
    replace (4 * s / 4)%nat with s by (rewrite Nat.mul_comm; symmetry; apply Nat.div_mul; lia).
    pose proof (Hd 0%nat ltac:(lia)) as E. rewrite !Nat.add_0_r in E. rewrite E, <- A1. reflexivity. }
  destruct (A3 1%nat ltac:(now left) c1 t L1) as (c2 & L2 & E2 & V2).
  destruct (A3 2%nat ltac:(right; now left) c2 t L2) as (c3 & L3 & E3 & V3).
  destruct (A3 3%nat ltac:(right; right; now left) c3 t L3) as (c4 & L4 & E4 & V4).
  cbn [Nat.sub] in E2, E3, E4. rewrite !exec_app, E2, E3, E4. f_equal.
  rewrite H4, (view_seq c4 L4) in V4. rewrite V4, V3, V2, V1.
  change (seq (4 * s) 4) with [4 * s; S (4 * s); S (S (4 * s)); S (S (S (4 * s)))]%nat. cbn [fold_left].
  assert (RR : forall k v, (1 <= k <= 3)%nat -> view (f_pi F) (mix_words (nth (z + k) (f_rots F) []) v) = tf_round F key tw v (4 * s + k)).
  { intros k v Hk3. unfold tf_round, view. cbv zeta. rewrite Hd by lia.
    replace ((4 * s + k) mod 4)%nat with k; [|rewrite Nat.add_comm, (Nat.mul_comm 4 s), Nat.mod_add, Nat.mod_small by lia; reflexivity].
    destruct (Nat.eqb_spec k 0); [lia|]. reflexivity. }
  rewrite !RR by lia. repeat f_equal; lia.
Qed.
Lemma fold_round_len key tw x l : length x = f_n F -> length (fold_left (tf_round F key tw) l x) = f_n F.
Proof. intros H. revert x H. induction l as [|d l IH]; intros x H; [exact H|]. cbn [fold_left]. apply IH. apply tf_round_len. Qed.
Lemma groups key tw rest x k : length key = f_n F -> length tw = 2%nat -> length x = f_n F ->
  exec 64 (segs (f_n F) g g' k) (x ++ ext_key key ++ ext_tweak tw ++ rest) =
  fold_left (tf_round F key tw) (seq 0 (4 * k)) x ++ ext_key key ++ ext_tweak tw ++ rest.
Proof.
  intros Hk Ht Hx. induction k as [|k IH]; [reflexivity|].
  unfold segs in *. rewrite seq_S, map_app, concat_app, exec_app, IH. cbn [map concat]. rewrite app_nil_r, Nat.add_0_l.
  replace (4 * S k)%nat with (4 * k + 4)%nat by lia. rewrite seq_app, fold_left_app, Nat.add_0_l.
  destruct (Nat.even k) eqn:E; eapply group; auto using fold_round_len; rewrite E; reflexivity.
Qed.
End group.
Ltac inst := eapply groups; try (intros rs H; (apply first4 || apply first8 || apply first16); exact H); try (split; reflexivity); try reflexivity; try exact t256; try exact t256'; try exact t512; try exact t512'; try exact t1024; try exact t1024'; try (cbn [f_n threefish256 threefish512 threefish1024]; lia); assumption.
Lemma groups256 key tw rest x k : length key = 4%nat -> length tw = 2%nat -> length x = 4%nat ->
  exec 64 (segs 4 g256 g256' k) (x ++ ext_key key ++ ext_tweak tw ++ rest) = fold_left (tf_round threefish256 key tw) (seq 0 (4 * k)) x ++ ext_key key ++ ext_tweak tw ++ rest.
Proof. intros Hk Ht Hx. change 4%nat with (f_n threefish256) at 1. inst. Qed.
Lemma groups512 key tw rest x k : length key = 8%nat -> length tw = 2%nat -> length x = 8%nat ->
  exec 64 (segs 8 g512 g512' k) (x ++ ext_key key ++ ext_tweak tw ++ rest) = fold_left (tf_round threefish512 key tw) (seq 0 (4 * k)) x ++ ext_key key ++ ext_tweak tw ++ rest.
Proof. intros Hk Ht Hx. change 8%nat with (f_n threefish512). inst. Qed.
Lemma groups1024 key tw rest x k : length key = 16%nat -> length tw = 2%nat -> length x = 16%nat ->
  exec 64 (segs 16 g1024 g1024' k) (x ++ ext_key key ++ ext_tweak tw ++ rest) = fold_left (tf_round threefish1024 key tw) (seq 0 (4 * k)) x ++ ext_key key ++ ext_tweak tw ++ rest.
Proof. intros Hk Ht Hx. change 16%nat with (f_n threefish1024). inst. Qed.

(** * the whole functions *)
Definition ones (n : nat) : list Z := repeat (2 ^ 64 - 1) n.
Lemma plus_assoc a b c : plus 64 (plus 64 a b) c = plus 64 a (plus 64 b c).
Proof. Transparent plus. unfold plus. rewrite Zplus_mod_idemp_l, Zplus_mod_idemp_r. f_equal. lia. Qed.
Opaque plus.
Lemma upd_mid A x C v : upd (A ++ x :: C) (length A) v = A ++ v :: C.
Proof. unfold upd. induction A as [|a A IH]; [reflexivity|]. cbn [app length upd]. now f_equal. Qed.
Lemma skipn_nth_cons : forall (l : list Z) o, (o < length l)%nat -> skipn o l = nth o l 0 :: skipn (S o) l.
Proof. induction l as [|x l IH]; intros [|o] H; cbn [length] in H; try lia; [reflexivity|]. cbn [skipn nth]. rewrite IH by lia. reflexivity. Qed.
Lemma load_ok w o : forall n A B C, length B = n -> (length A + n <= o)%nat -> (o + n <= length (A ++ B ++ C))%nat ->
  exec w (load o (length A) n) (A ++ B ++ C) = A ++ slice (A ++ B ++ C) o n ++ C.
Proof.
  unfold load. intros n. revert o. induction n as [|n IH]; intros o A B C HB HA HC.
  - destruct B; [|discriminate]. unfold slice. reflexivity.
  - destruct B as [|b B]; [discriminate|]. injection HB as HB.
    cbn [seq map]. unfold exec. cbn [fold_left]. unfold exec1 at 2. cbn [fst snd ev]. rewrite !Nat.add_0_r.
    cbn [app]. rewrite upd_mid. set (v := nth o (A ++ b :: B ++ C) 0).
    rewrite <- seq_shift, map_map.
    assert (E : forall i, (((length A + S i)%nat, R (o + S i)) = ((length (A ++ [v]) + i)%nat, R (S o + i)))).
    { intros i. rewrite app_length. cbn [length]. replace (length A + S i)%nat with (length A + 1 + i)%nat by lia. replace (o + S i)%nat with (S o + i)%nat by lia. reflexivity. }
    rewrite (map_ext _ _ E). fold (exec w (map (fun i => ((length (A ++ [v]) + i)%nat, R (S o + i))) (seq 0 n))).
    replace (A ++ v :: B ++ C) with ((A ++ [v]) ++ B ++ C) by (now rewrite <- app_assoc).
    unfold exec in IH |- *. rewrite IH; [|exact HB|rewrite app_length; cbn [length]; lia|rewrite !app_length in *; cbn [length] in *; rewrite ?app_length in *; lia].
    rewrite <- !app_assoc. cbn [app]. f_equal.
    assert (E2 : slice (A ++ v :: B ++ C) (S o) n = slice (A ++ b :: B ++ C) (S o) n).
    { unfold slice. f_equal. replace (A ++ v :: B ++ C) with ((A ++ [v]) ++ B ++ C) by (now rewrite <- app_assoc). replace (A ++ b :: B ++ C) with ((A ++ [b]) ++ B ++ C) by (now rewrite <- app_assoc).
      rewrite (skipn_app (S o) (A ++ [v])), (skipn_app (S o) (A ++ [b])), (skipn_all2 (A ++ [v])), (skipn_all2 (A ++ [b])) by (rewrite app_length; cbn [length]; lia). rewrite !app_length. reflexivity. }
    rewrite E2. cbn [app]. f_equal. unfold slice, v. 
    rewrite (skipn_nth_cons _ o) by (cbn [app] in HC; lia). reflexivity.
Qed.
Lemma firstn_S m : forall l : list Z, (m < length l)%nat -> firstn (S m) l = firstn m l ++ [nth m l 0].
Proof. induction m as [|m IH]; intros [|x l] H; cbn [length] in H; try lia; [reflexivity|]. cbn [firstn nth app] in *. rewrite IH by lia. reflexivity. Qed.
Lemma upd_eq A x C i v : i = length A -> upd (A ++ x :: C) i v = A ++ v :: C. Proof. intros ->. apply upd_mid. Qed.
Lemma nth_mid A B C i j : j = (length A + i)%nat -> (i < length B)%nat -> nth j (A ++ B ++ C) 0 = nth i B 0.
Proof. intros -> H. rewrite app_nth2_plus. now apply app_nth1. Qed.
Lemma parity_ev n A key C : length A = n -> length key = n -> (0 < n)%nat ->
  ev 64 (A ++ key ++ C) (fold_left (fun e i => Xo e (kr n i)) (seq 1 (n - 1)) (kr n 0)) = fold_left Z.lxor (tl key) (hd 0 key).
Proof.
  intros HA HK Hn. destruct key as [|k key]; [cbn in HK; lia|]. cbn [tl hd]. cbn [length] in HK.
  assert (G : forall m e, (m <= length key)%nat -> ev 64 (A ++ (k :: key) ++ C) e = fold_left Z.lxor [] k ->
    ev 64 (A ++ (k :: key) ++ C) (fold_left (fun e i => Xo e (kr n i)) (seq 1 m) e) = fold_left Z.lxor (firstn m key) k).
  { induction m as [|m IH]; intros e Hm He; [exact He|]. rewrite seq_S, fold_left_app. cbn [fold_left ev].
    rewrite IH by (auto; lia). unfold kr. cbn [ev]. rewrite (nth_mid A (k :: key) C (1 + m)) by (cbn [length]; lia). cbn [nth Nat.add].
    rewrite (firstn_S m) by lia. rewrite fold_left_app. reflexivity. }
  rewrite G; [|lia|unfold kr; cbn [ev fold_left]; rewrite (nth_mid A (k :: key) C 0) by (cbn [length]; lia); reflexivity].
  rewrite firstn_all2 by lia. reflexivity.
Qed.
Lemma exec_one w i s : exec w [i] s = upd s (fst i) (ev w s (snd i)). Proof. reflexivity. Qed.
Lemma nth_firstn_lt (l : list Z) m i : (i < m)%nat -> nth i (firstn m l) 0 = nth i l 0.
Proof. revert m i. induction l as [|x l IH]; intros [|m] [|i] H; try lia; try reflexivity. cbn [firstn nth]. apply IH. lia. Qed.
Lemma nth_skipn_at (l : list Z) o : forall i, nth i (skipn o l) 0 = nth (o + i) l 0.
Proof. revert o. induction l as [|x l IH]; intros [|o] i; try reflexivity; [now destruct i|]. cbn [skipn Nat.add nth]. apply IH. Qed.
Lemma header_ok n ko to X Kz Tz rest key tw : (0 < n)%nat -> length X = n -> length Kz = S n -> length Tz = 3%nat -> length key = n -> length tw = 2%nat ->
  (2 * n + 4 <= ko)%nat -> (2 * n + 4 <= to)%nat -> slice rest (ko - (2 * n + 4)) n = key -> slice rest (to - (2 * n + 4)) 2 = tw ->
  exec 64 (header n ko to) (X ++ Kz ++ Tz ++ rest) = X ++ ext_key key ++ ext_tweak tw ++ rest.
Proof.
  intros Hn HX HK HT Hk Ht Hko Hto EK ET.
  assert (LK : (ko - (2 * n + 4) + n <= length rest)%nat).
  { pose proof (f_equal (@length Z) EK) as E. unfold slice in E. rewrite firstn_length, skipn_length, Hk in E. lia. }
  assert (LT : (to - (2 * n + 4) + 2 <= length rest)%nat).
  { pose proof (f_equal (@length Z) ET) as E. unfold slice in E. rewrite firstn_length, skipn_length, Ht in E. lia. }
  assert (SL : forall P o m, length P = (2 * n + 4)%nat -> (2 * n + 4 <= o)%nat -> slice (P ++ rest) o m = slice rest (o - (2 * n + 4)) m).
  { intros P o m HP Ho. unfold slice. f_equal. rewrite skipn_app, skipn_all2 by lia. rewrite HP. reflexivity. }
  destruct Kz as [|k0 Kz] using rev_ind; [discriminate|]. clear IHKz. rewrite app_length in HK. cbn [length] in HK.
  unfold header. rewrite !exec_app.
  assert (E1 : exec 64 (load ko n n) (X ++ (Kz ++ [k0]) ++ Tz ++ rest) = X ++ key ++ [k0] ++ Tz ++ rest).
  { rewrite <- app_assoc. rewrite <- HX at 1. rewrite (load_ok 64 ko n X Kz ([k0] ++ Tz ++ rest)); [|lia|lia|rewrite !app_length; cbn [length]; lia].
    f_equal. f_equal. replace (X ++ Kz ++ [k0] ++ Tz ++ rest) with ((X ++ Kz ++ [k0] ++ Tz) ++ rest) by (now rewrite <- !app_assoc).
    rewrite SL; [exact EK|rewrite !app_length; cbn [length]; lia|lia]. }
  rewrite E1. clear E1.
  rewrite (exec_one 64 ((n + n)%nat, _)). cbn [fst snd ev]. rewrite parity_ev by (auto; lia).
  assert (E2 : forall v, upd (X ++ key ++ [k0] ++ Tz ++ rest) (n + n) v = (X ++ key ++ [v]) ++ Tz ++ rest).
  { intros v. rewrite (app_assoc X key). cbn [app]. rewrite (upd_eq (X ++ key)) by (rewrite app_length; lia). now rewrite <- !app_assoc. }
  rewrite E2. set (EKY := X ++ key ++ [_]). assert (LE : length EKY = (n + S n)%nat) by (unfold EKY; rewrite !app_length; cbn [length]; lia).
  destruct Tz as [|t0 [|t1 [|t2 [|]]]]; try discriminate.
  assert (E3 : exec 64 (load to (n + S n) 2) (EKY ++ [t0; t1; t2] ++ rest) = EKY ++ tw ++ [t2] ++ rest).
  { rewrite <- LE. change ([t0; t1; t2] ++ rest) with ([t0; t1] ++ [t2] ++ rest).
    rewrite (load_ok 64 to 2 EKY [t0; t1] ([t2] ++ rest)); [|reflexivity|lia|rewrite !app_length; cbn [length]; rewrite ?app_length; lia].
    f_equal. f_equal. replace (EKY ++ [t0; t1] ++ [t2] ++ rest) with ((EKY ++ [t0; t1; t2]) ++ rest) by (now rewrite <- !app_assoc).
    rewrite SL; [exact ET|rewrite !app_length; cbn [length]; lia|lia]. }
  rewrite E3, exec_one. cbn [fst snd ev].
  assert (E4 : forall i, (i < 2)%nat -> nth (to + i) (EKY ++ tw ++ [t2] ++ rest) 0 = nth i tw 0).
  { intros i Hi. rewrite <- ET at 2. unfold slice.
    rewrite nth_firstn_lt by lia. rewrite nth_skipn_at.
    replace (EKY ++ tw ++ [t2] ++ rest) with ((EKY ++ tw ++ [t2]) ++ rest) by (now rewrite <- !app_assoc).
    rewrite app_nth2 by (rewrite !app_length; cbn [length]; lia). f_equal. rewrite !app_length. cbn [length]. lia. }
  pose proof (E4 0%nat ltac:(lia)) as E40. rewrite Nat.add_0_r in E40. rewrite E40, E4 by lia.
  rewrite (app_assoc EKY tw). cbn [app]. rewrite (upd_eq (EKY ++ tw)) by (rewrite app_length; lia).
  unfold EKY, ext_key, ext_tweak. rewrite <- !app_assoc. reflexivity.
Qed.
Lemma slice_at {A} (a b c : list A) o n : o = length a -> n = length b -> slice (a ++ b ++ c) o n = b.
Proof. intros -> ->. unfold slice. rewrite skipn_app, skipn_all, Nat.sub_diag. cbn [skipn app]. rewrite firstn_app, firstn_all, Nat.sub_diag. cbn [firstn]. apply app_nil_r. Qed.
Lemma fill_ok c : forall m A B C, length B = m -> exec 64 (map (fun i => (i, K c)) (seq (length A) m)) (A ++ B ++ C) = A ++ repeat c m ++ C.
Proof.
  induction m as [|m IH]; intros A B C H; [destruct B; [reflexivity|discriminate]|]. destruct B as [|b B]; [discriminate|]. injection H as H.
  cbn [seq map repeat app]. unfold exec in *. cbn [fold_left]. unfold exec1 at 2. cbn [fst snd ev]. rewrite upd_mid. specialize (IH (A ++ [c]) B C H). rewrite app_length in IH. cbn [length] in IH. rewrite Nat.add_1_r in IH. rewrite <- !app_assoc in IH. exact IH.
Qed.
(** the preparation: the block words, the key words, the tweak words *)
Lemma start_ok n ctr key tw : (2 <= n)%nat -> length key = n -> length ctr = 2%nat -> length tw = 2%nat ->
  exec 64 (header n (2 * n + 6) (3 * n + 6)) (exec 64 (map (fun i => (i, K (2 ^ 64 - 1))) (seq 2 (n - 2))) (exec 64 (load (2 * n + 4) 0 2) (zeros (2 * n + 4) ++ ctr ++ key ++ tw ++ zeros n)))
  = (ctr ++ ones (n - 2)) ++ ext_key key ++ ext_tweak tw ++ ctr ++ key ++ tw ++ zeros n.
Proof.
  intros Hn Hk Hc Ht.
  replace (zeros (2 * n + 4)) with (zeros 2 ++ zeros (n - 2) ++ zeros (S n) ++ zeros 3) by (unfold zeros; rewrite <- !repeat_app; f_equal; lia).
  set (Q := ctr ++ key ++ tw ++ zeros n). rewrite <- !app_assoc.
  change (load (2 * n + 4) 0 2) with (load (2 * n + 4) (length (@nil Z)) 2).
  change (zeros 2 ++ zeros (n - 2) ++ zeros (S n) ++ zeros 3 ++ Q) with ([] ++ zeros 2 ++ (zeros (n - 2) ++ zeros (S n) ++ zeros 3 ++ Q)).
  rewrite (load_ok 64 (2 * n + 4) 2 [] (zeros 2)); [|apply length_zeros|cbn [length]; lia|unfold Q; cbn [app]; rewrite !app_length, !length_zeros; lia].
  replace (slice ([] ++ zeros 2 ++ zeros (n - 2) ++ zeros (S n) ++ zeros 3 ++ Q) (2 * n + 4) 2) with ctr.
  2:{ cbn [app]. replace (zeros 2 ++ zeros (n - 2) ++ zeros (S n) ++ zeros 3 ++ Q) with ((zeros 2 ++ zeros (n - 2) ++ zeros (S n) ++ zeros 3) ++ Q) by (now rewrite <- !app_assoc).
      unfold Q. symmetry. apply slice_at; [rewrite !app_length, !length_zeros; lia|now rewrite Hc]. }
  cbn [app]. replace (seq 2 (n - 2)) with (seq (length ctr) (n - 2)) by (now rewrite Hc).
  rewrite fill_ok by apply length_zeros. fold (ones (n - 2)). rewrite app_assoc.
  assert (LQ : length (ctr ++ ones (n - 2)) = n) by (rewrite app_length; unfold ones; rewrite repeat_length; lia).
  rewrite (header_ok n _ _ (ctr ++ ones (n - 2)) (zeros (S n)) (zeros 3) Q key tw); auto using length_zeros; try lia.
  - unfold Q. now rewrite <- !app_assoc.
  - unfold Q. apply slice_at; lia.
  - unfold Q. rewrite (app_assoc ctr). apply slice_at; rewrite ?app_length; lia.
Qed.
Lemma kstart_ok n inp key tw : (2 <= n)%nat -> length key = n -> length inp = n -> length tw = 2%nat ->
  exec 64 (header n (3 * n + 6) (3 * n + 4)) (exec 64 (load (2 * n + 4) 0 n) (zeros (2 * n + 4) ++ inp ++ tw ++ key))
  = inp ++ ext_key key ++ ext_tweak tw ++ inp ++ tw ++ key.
Proof.
  intros Hn Hk Hc Ht.
  replace (zeros (2 * n + 4)) with (zeros n ++ zeros (S n) ++ zeros 3) by (unfold zeros; rewrite <- !repeat_app; f_equal; lia).
  set (Q := inp ++ tw ++ key). rewrite <- !app_assoc.
  change (load (2 * n + 4) 0 n) with (load (2 * n + 4) (length (@nil Z)) n).
  change (zeros n ++ zeros (S n) ++ zeros 3 ++ Q) with ([] ++ zeros n ++ (zeros (S n) ++ zeros 3 ++ Q)).
  rewrite (load_ok 64 (2 * n + 4) n [] (zeros n)); [|apply length_zeros|cbn [length]; lia|unfold Q; cbn [app]; rewrite !app_length, !length_zeros; lia].
  replace (slice ([] ++ zeros n ++ zeros (S n) ++ zeros 3 ++ Q) (2 * n + 4) n) with inp.
  2:{ cbn [app]. replace (zeros n ++ zeros (S n) ++ zeros 3 ++ Q) with ((zeros n ++ zeros (S n) ++ zeros 3) ++ Q) by (now rewrite <- !app_assoc).
      unfold Q. symmetry. apply slice_at; [rewrite !app_length, !length_zeros; lia|now rewrite Hc]. }
  cbn [app].
  rewrite (header_ok n _ _ inp (zeros (S n)) (zeros 3) Q key tw); auto using length_zeros; try lia.
  - unfold Q. rewrite (app_assoc inp), <- (app_nil_r ((inp ++ tw) ++ key)), <- app_assoc. apply slice_at; rewrite ?app_length; lia.
  - unfold Q. apply slice_at; lia.
Qed.
Ltac run_foot := lazy [load header footer map seq app exec fold_left exec1 upd fst snd ev nth Nat.add Nat.sub kr tr zeros repeat ones ext_key ext_tweak tl hd inject sum sumof skipn Nat.mul Nat.modulo Nat.divmod Nat.eqb tf_encrypt add_words add64 combine subkey subword f_n threefish256 threefish512 threefish1024].
Ltac sumtac := repeat (apply cons_eq; [change (wadd 64) with (plus 64); first [reflexivity|apply plus_assoc]|]); reflexivity.
Lemma tsx256_ok key ctr tw : length key = 4%nat -> length ctr = 2%nat -> length tw = 2%nat ->
  PemuteR72P256U key ctr tw = Ok (tf_encrypt threefish256 72 (subkey threefish256 key tw 18 18) key tw (ctr ++ ones 2)).
Proof.
  intros H1 H2 H3. unfold PemuteR72P256U, TPermute. rewrite H1, H2, H3. cbn [Nat.eqb andb safe bind]. f_equal.
  rewrite tsx256_is, !exec_app.
  match goal with |- skipn _ (exec _ _ (exec _ _ ?s)) = _ => replace s with ((ctr ++ ones 2) ++ ext_key key ++ ext_tweak tw ++ ctr ++ key ++ tw ++ zeros 4) by (symmetry; exact (start_ok 4 ctr key tw ltac:(lia) H1 H2 H3)) end.
  rewrite groups256; [|auto|auto|rewrite app_length, H2; reflexivity].
  unfold tf_encrypt. change (4 * 18)%nat with 72%nat.
  assert (L : length (fold_left (tf_round threefish256 key tw) (seq 0 72) (ctr ++ ones 2)) = 4%nat).
  { apply (fold_round_len threefish256); [reflexivity|rewrite app_length, H2; reflexivity]. }
  revert L. generalize (fold_left (tf_round threefish256 key tw) (seq 0 72) (ctr ++ ones 2)). intros c L.
  open_words c L. open_words key H1. open_words ctr H2. open_words tw H3. run_foot. sumtac.
Qed.
Lemma tsx512_ok key ctr tw : length key = 8%nat -> length ctr = 2%nat -> length tw = 2%nat ->
  PemuteR96P512U key ctr tw = Ok (tf_encrypt threefish512 96 (subkey threefish512 key tw 18 24) key tw (ctr ++ ones 6)).
Proof.
  intros H1 H2 H3. unfold PemuteR96P512U, TPermute. rewrite H1, H2, H3. cbn [Nat.eqb andb safe bind]. f_equal.
  rewrite tsx512_is, !exec_app.
  match goal with |- skipn _ (exec _ _ (exec _ _ ?s)) = _ => replace s with ((ctr ++ ones 6) ++ ext_key key ++ ext_tweak tw ++ ctr ++ key ++ tw ++ zeros 8) by (symmetry; exact (start_ok 8 ctr key tw ltac:(lia) H1 H2 H3)) end.
  rewrite groups512; [|auto|auto|rewrite app_length, H2; reflexivity].
  unfold tf_encrypt. change (4 * 24)%nat with 96%nat.
  assert (L : length (fold_left (tf_round threefish512 key tw) (seq 0 96) (ctr ++ ones 6)) = 8%nat).
  { apply (fold_round_len threefish512); [reflexivity|rewrite app_length, H2; reflexivity]. }
  revert L. generalize (fold_left (tf_round threefish512 key tw) (seq 0 96) (ctr ++ ones 6)). intros c L.
  open_words c L. open_words key H1. open_words ctr H2. open_words tw H3. run_foot. sumtac.
Qed.
Lemma tsx1024_ok key ctr tw : length key = 16%nat -> length ctr = 2%nat -> length tw = 2%nat ->
  PemuteR120P1024U key ctr tw = Ok (tf_encrypt threefish1024 120 (subkey threefish1024 key tw 20 30) key tw (ctr ++ ones 14)).
Proof.
  intros H1 H2 H3. unfold PemuteR120P1024U, TPermute. rewrite H1, H2, H3. cbn [Nat.eqb andb safe bind]. f_equal.
  rewrite tsx1024_is, !exec_app.
  match goal with |- skipn _ (exec _ _ (exec _ _ ?s)) = _ => replace s with ((ctr ++ ones 14) ++ ext_key key ++ ext_tweak tw ++ ctr ++ key ++ tw ++ zeros 16) by (symmetry; exact (start_ok 16 ctr key tw ltac:(lia) H1 H2 H3)) end.
  rewrite groups1024; [|auto|auto|rewrite app_length, H2; reflexivity].
  unfold tf_encrypt. change (4 * 30)%nat with 120%nat.
  assert (L : length (fold_left (tf_round threefish1024 key tw) (seq 0 120) (ctr ++ ones 14)) = 16%nat).
  { apply (fold_round_len threefish1024); [reflexivity|rewrite app_length, H2; reflexivity]. }
  revert L. generalize (fold_left (tf_round threefish1024 key tw) (seq 0 120) (ctr ++ ones 14)). intros c L.
  open_words c L. open_words key H1. open_words ctr H2. open_words tw H3. run_foot. sumtac.
Qed.
Lemma skein256_ok inp tw key : length inp = 4%nat -> length tw = 2%nat -> length key = 4%nat ->
  Skein_PemuteR72P256U inp tw key = Ok (threefish threefish256 72 key tw inp).
Proof.
  intros H2 H3 H1. unfold Skein_PemuteR72P256U, KPermute. rewrite H1, H2, H3. cbn [Nat.eqb andb safe bind]. f_equal.
  rewrite skein256_is, !exec_app.
  match goal with |- skipn _ (exec _ _ (exec _ _ ?s)) = _ => replace s with (inp ++ ext_key key ++ ext_tweak tw ++ inp ++ tw ++ key) by (symmetry; exact (kstart_ok 4 inp key tw ltac:(lia) H1 H2 H3)) end.
  rewrite groups256 by auto.
  unfold threefish, tf_encrypt. change (4 * 18)%nat with 72%nat. change (72 / 4)%nat with 18%nat. change (Z.of_nat 18) with 18.
  assert (L : length (fold_left (tf_round threefish256 key tw) (seq 0 72) inp) = 4%nat).
  { apply (fold_round_len threefish256); [reflexivity|exact H2]. }
  revert L. generalize (fold_left (tf_round threefish256 key tw) (seq 0 72) inp). intros c L.
  open_words c L. open_words key H1. open_words inp H2. open_words tw H3. run_foot. sumtac.
Qed.
Lemma skein512_ok inp tw key : length inp = 8%nat -> length tw = 2%nat -> length key = 8%nat ->
  Skein_PemuteR72P512U inp tw key = Ok (threefish threefish512 72 key tw inp).
Proof.
  intros H2 H3 H1. unfold Skein_PemuteR72P512U, KPermute. rewrite H1, H2, H3. cbn [Nat.eqb andb safe bind]. f_equal.
  rewrite skein512_is, !exec_app.
  match goal with |- skipn _ (exec _ _ (exec _ _ ?s)) = _ => replace s with (inp ++ ext_key key ++ ext_tweak tw ++ inp ++ tw ++ key) by (symmetry; exact (kstart_ok 8 inp key tw ltac:(lia) H1 H2 H3)) end.
  rewrite groups512 by auto.
  unfold threefish, tf_encrypt. change (4 * 18)%nat with 72%nat. change (72 / 4)%nat with 18%nat. change (Z.of_nat 18) with 18.
  assert (L : length (fold_left (tf_round threefish512 key tw) (seq 0 72) inp) = 8%nat).
  { apply (fold_round_len threefish512); [reflexivity|exact H2]. }
  revert L. generalize (fold_left (tf_round threefish512 key tw) (seq 0 72) inp). intros c L.
  open_words c L. open_words key H1. open_words inp H2. open_words tw H3. run_foot. sumtac.
Qed.
Lemma skein1024_ok inp tw key : length inp = 16%nat -> length tw = 2%nat -> length key = 16%nat ->
  Skein_PemuteR80P1024U inp tw key = Ok (threefish threefish1024 80 key tw inp).
Proof.
  intros H2 H3 H1. unfold Skein_PemuteR80P1024U, KPermute. rewrite H1, H2, H3. cbn [Nat.eqb andb safe bind]. f_equal.
  rewrite skein1024_is, !exec_app.
  match goal with |- skipn _ (exec _ _ (exec _ _ ?s)) = _ => replace s with (inp ++ ext_key key ++ ext_tweak tw ++ inp ++ tw ++ key) by (symmetry; exact (kstart_ok 16 inp key tw ltac:(lia) H1 H2 H3)) end.
  rewrite groups1024 by auto.
  unfold threefish, tf_encrypt. change (4 * 20)%nat with 80%nat. change (80 / 4)%nat with 20%nat. change (Z.of_nat 20) with 20.
  assert (L : length (fold_left (tf_round threefish1024 key tw) (seq 0 80) inp) = 16%nat).
  { apply (fold_round_len threefish1024); [reflexivity|exact H2]. }
  revert L. generalize (fold_left (tf_round threefish1024 key tw) (seq 0 80) inp). intros c L.
  open_words c L. open_words key H1. open_words inp H2. open_words tw H3. run_foot. sumtac.
Qed.
