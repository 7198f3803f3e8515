(** Noise and matrix sampling. *)
From Verif Require Import BaseLemmas Proofs_IntegerTools Proofs_IntegerTools2 Spec_Keccak Model_Keccak Spec_Kyber Model_Kyber Model_Modes Proofs_Windows Proofs_Keccak Proofs_Sponge Proofs_SHA3 Proofs_XOF Proofs_CSX2
  Proofs_Kyber Proofs_Kyber5 Proofs_Kyber9 Proofs_Kyber10 Proofs_Kyber12.
Open Scope Z_scope.

Ltac ln := repeat first [rewrite length_zeros | rewrite length_splice by ln]; cbn [length]; lia.
(** * noise *)
Lemma gc2 : gives 4 8 cbd2_group. Proof. intros x _. reflexivity. Qed.
Lemma gc3 : gives 3 4 cbd3_group. Proof. intros x _. reflexivity. Qed.
Lemma Cbd2_ok r b : length r = 256%nat -> length b = 128%nat -> bytes b -> Cbd2 r b = Ok (cbd 2 b).
Proof.
  intros Hr L Hb. unfold Cbd2. rewrite groups_ok by (lia || exact gc2). change (4 * 32)%nat with 128%nat. rewrite slice_all by (symmetry; exact L).
  assert (Lg : length (gmap 4 cbd2_group b) = 256%nat) by (apply (gmap_len 4 8 _ 32); [lia|exact gc2|exact L]).
  rewrite splice_full by (rewrite Lg; symmetry; exact Hr). f_equal. apply (list_ext 0); [rewrite Lg; symmetry; apply poly_of_len|]. rewrite Lg. intros n Hn.
  unfold cbd. rewrite nth_poly_of by exact Hn. fold (cbd_at 2 b n). assert (E : exists i j, n = (8 * i + j)%nat /\ (i < 32)%nat /\ (j < 8)%nat).
  { exists (n / 8)%nat, (n mod 8)%nat. pose proof (Nat.div_mod n 8 ltac:(lia)). pose proof (Nat.mod_upper_bound n 8 ltac:(lia)). lia. }
  destruct E as (i & j & -> & Hi & Hj). rewrite (nth_gmap 4 8 _ ltac:(lia) gc2 32) by (lia || exact L). rewrite cbd2_at by (first [exact Hj | apply bytes_slice; exact Hb | apply length_slice; lia]).
  unfold cbd_at. f_equal; apply zsum_ext; intros k Hk; rewrite bit_slice by lia; f_equal; lia.
Qed.
Lemma Cbd3_ok r b : length r = 256%nat -> length b = 192%nat -> bytes b -> Cbd3 r b = Ok (cbd 3 b).
Proof.
  intros Hr L Hb. unfold Cbd3. rewrite groups_ok by (lia || exact gc3). change (3 * 64)%nat with 192%nat. rewrite slice_all by (symmetry; exact L).
  assert (Lg : length (gmap 3 cbd3_group b) = 256%nat) by (apply (gmap_len 3 4 _ 64); [lia|exact gc3|exact L]).
  rewrite splice_full by (rewrite Lg; symmetry; exact Hr). f_equal. apply (list_ext 0); [rewrite Lg; symmetry; apply poly_of_len|]. rewrite Lg. intros n Hn.
  unfold cbd. rewrite nth_poly_of by exact Hn. fold (cbd_at 3 b n). assert (E : exists i j, n = (4 * i + j)%nat /\ (i < 64)%nat /\ (j < 4)%nat).
  { exists (n / 4)%nat, (n mod 4)%nat. pose proof (Nat.div_mod n 4 ltac:(lia)). pose proof (Nat.mod_upper_bound n 4 ltac:(lia)). lia. }
  destruct E as (i & j & -> & Hi & Hj). rewrite (nth_gmap 3 4 _ ltac:(lia) gc3 64) by (lia || exact L). rewrite cbd3_at by (first [exact Hj | apply bytes_slice; exact Hb | apply length_slice; lia]).
  unfold cbd_at. f_equal; apply zsum_ext; intros k Hk; rewrite bit_slice by lia; f_equal; lia.
Qed.
Lemma shake_len rate m n : (0 < rate <= 200)%nat -> bytes m -> length (shake 24 rate m n) = n.
Proof.
  intros Hr Hm. destruct (Absorb_ok 24 m 0 (length m) rate 31 zero_state r24 Hr zero_state_ok Hm ltac:(lia) ltac:(red; lia)) as (st & _ & A).
  rewrite slice_all in A by reflexivity. unfold shake. rewrite (sponge_stream _ _ _ _ _ _ _ A). apply stream_len; [exact Hr|apply A].
Qed.
Lemma noise_bytes_ok seed so nonce n : bytes seed -> (so + 32 <= length seed)%nat -> is_byte nonce -> noise_bytes seed so nonce n = Ok (shake 24 136 (slice seed so 32 ++ [nonce]) n).
Proof.
  intros Hs Ho Hn. unfold noise_bytes, KYBER_SYMBYTES. rewrite wcopy_ok by (rewrite ?length_zeros; lia). cbn [bind].
  assert (L : length (slice seed so 32) = 32%nat) by (apply length_slice; lia).
  rewrite put_ok by ln. cbn [bind].
  assert (E : upd (splice (zeros (32 + 1)) 0 (slice seed so 32)) 32 nonce = slice seed so 32 ++ [nonce]).
  { rewrite upd_as_splice by ln. replace 32%nat with (0 + length (slice seed so 32))%nat at 3 by lia. rewrite splice_splice_next by (rewrite length_zeros; cbn [length]; lia).
    apply splice_full. rewrite app_length, length_zeros, L. reflexivity. }
  rewrite E. clear E. assert (B : bytes (slice seed so 32 ++ [nonce])) by (apply bytes_app; split; [now apply bytes_slice|now constructor]).
  rewrite XOF_ok by (auto using r24; try lia; rewrite length_zeros; lia). rewrite slice_all by reflexivity. f_equal. apply splice_full. rewrite length_zeros. apply shake_len; [lia|exact B].
Qed.
Lemma Noise_ok r seed so nonce eta : (eta = 2 \/ eta = 3)%nat -> length r = 256%nat -> bytes seed -> (so + 32 <= length seed)%nat -> (nonce < 256)%nat ->
  PolyGetNoiseEta1 r seed so (u8 (Z.of_nat nonce)) eta = Ok (noise eta (slice seed so 32) nonce).
Proof.
  intros He Hr Hs Ho Hn. unfold PolyGetNoiseEta1, u8. rewrite Z.mod_small by lia. assert (Hb : is_byte (Z.of_nat nonce)) by (red; lia). rewrite noise_bytes_ok by auto. cbn [bind]. unfold PolyCbdEta1, noise.
  assert (B : bytes (slice seed so 32 ++ [Z.of_nat nonce])) by (apply bytes_app; split; [now apply bytes_slice|now constructor]).
  destruct He as [-> | ->]; cbn [Nat.eqb]; [change (2 * 256 / 4)%nat with (64 * 2)%nat; apply Cbd2_ok|change (3 * 256 / 4)%nat with (64 * 3)%nat; apply Cbd3_ok]; auto; try (apply shake_len; [lia|exact B]); apply sponge_bytes.
Qed.
Lemma Noise2_ok r seed so nonce : length r = 256%nat -> bytes seed -> (so + 32 <= length seed)%nat -> (nonce < 256)%nat ->
  PolyGetNoiseEta2 r seed so (u8 (Z.of_nat nonce)) = Ok (noise 2 (slice seed so 32) nonce).
Proof. intros. change (PolyGetNoiseEta2 r seed so (u8 (Z.of_nat nonce))) with (PolyGetNoiseEta1 r seed so (u8 (Z.of_nat nonce)) 2). apply Noise_ok; auto. Qed.
Lemma noise_vec_ok K f g nonce : (forall n, (n < nonce + K)%nat -> f (u8 (Z.of_nat n)) = Ok (g n)) -> noise_vec K f nonce = Ok (map g (seq nonce K)).
Proof.
  unfold noise_vec. generalize (zeros 256). intros z. revert nonce. induction K as [|K IH]; intros nonce H; cbn [repeat vec_map seq map]; [reflexivity|]. rewrite H by lia. cbn [bind]. rewrite IH; [reflexivity|]. intros n Hn. apply H. lia.
Qed.
Lemma zsum_bits n f : (forall k, 0 <= f k <= 1) -> 0 <= zsum n f <= Z.of_nat n.
Proof. intros H. induction n as [|n IH]; [cbn; lia|]. cbn [zsum]. pose proof (H n). pose proof (H 0%nat). lia. Qed.
Lemma noise_bnd eta seed n : (eta <= 3)%nat -> bnd 3 (noise eta seed n).
Proof.
  intros He. unfold noise, cbd. split; [apply poly_of_len|]. unfold poly_of. rewrite Forall_map. apply Forall_forall. intros i _.
  assert (B : forall b k, 0 <= bit_at b k <= 1) by (intros; unfold bit_at; pose proof (Z.mod_pos_bound (nth (k / 8) b 0 / 2 ^ Z.of_nat (k mod 8)) 2); lia).
  pose proof (zsum_bits eta (fun k => bit_at (shake 24 136 (seed ++ [Z.of_nat n]) (64 * eta)) (2 * eta * i + k)) ltac:(intros; apply B)).
  pose proof (zsum_bits eta (fun k => bit_at (shake 24 136 (seed ++ [Z.of_nat n]) (64 * eta)) (2 * eta * i + eta + k)) ltac:(intros; apply B)). lia.
Qed.

(** * rejection sampling *)
Lemma two12_ok b : bytes b -> length b = 3%nat -> unpack12 b = two12 b.
Proof.
  intros Hb L. destruct b as [|x [|y [|z [|? ?]]]]; try discriminate. inversion Hb as [|? ? Hx Hb1]; subst. inversion Hb1 as [|? ? Hy Hb2]; subst. inversion Hb2 as [|? ? Hz _]; subst. unfold is_byte in *.
  unfold unpack12, two12. cbn [nth]. rewrite !mask12. rewrite Z.shiftr_0_r. rewrite !lor_shiftl_add; [|lia|rewrite Z.shiftr_div_pow2 by lia; change (2 ^ 4) with 16; lia|lia|lia].
  rewrite Z.shiftr_div_pow2 by lia. change (2 ^ 4) with 16. change (2 ^ 8) with 256. change (2 ^ 12) with 4096. f_equal; [|f_equal]; lia.
Qed.
Definition kept (b : list Z) : list Z := filter (fun x => x <? KYBER_Q) (gmap 3 unpack12 b).
Lemma kept_ok b k : bytes b -> length b = (3 * k)%nat -> kept b = accepted b.
Proof.
  intros Hb L. unfold kept, accepted. change KYBER_Q with Q. f_equal. unfold gmap. revert Hb. apply (chunks_ind 3 (fun b => bytes b -> concat (map unpack12 (chunks 3 b)) = concat (map two12 (chunks 3 b))) ltac:(lia)) with (k := k); [reflexivity| |exact L].
  intros c t Hc IH Hb. apply bytes_app in Hb. destruct Hb as [H1 H2]. rewrite chunks_app by (auto; lia). cbn [map concat]. now rewrite two12_ok, IH.
Qed.
Lemma put1 r o (v : Z) : (o < length r)%nat -> put r o v = Ok (splice r o [v]).
Proof. intros H. rewrite put_ok by exact H. now rewrite upd_as_splice. Qed.
Lemma spl1 r o (v : Z) l : (o + S (length l) <= length r)%nat -> splice (splice r o [v]) (S o) l = splice r o (v :: l).
Proof. intros H. replace (S o) with (o + length [v])%nat by (cbn [length]; lia). rewrite splice_splice_next by (cbn [length]; lia). reflexivity. Qed.
Lemma rej_ok buf n : (3 * n <= length buf)%nat -> forall d i fuel r ro rlen ctr, (d = n - i)%nat -> (i <= n)%nat -> (d < fuel)%nat -> (ro + rlen <= length r)%nat -> (ctr <= rlen)%nat ->
  let acc := kept (slice buf (3 * i) (3 * d)) in
  rej_loop fuel r ro rlen buf (3 * n) ctr (3 * i) = Ok (splice r (ro + ctr) (firstn (rlen - ctr) acc), (ctr + Nat.min (rlen - ctr) (length acc))%nat).
Proof.
  intros HB. induction d as [|d IH]; intros i fuel r ro rlen ctr Hd Hi Hf Hr Hc; cbv zeta; (destruct fuel as [|fuel]; [lia|]); cbn [rej_loop].
  - replace (3 * i + 3 <=? 3 * n)%nat with false by (symmetry; apply Nat.leb_gt; lia). rewrite andb_false_r. rewrite Nat.mul_0_r.
    change (kept (slice buf (3 * i) 0)) with (@nil Z). rewrite firstn_nil, splice_nil. cbn [length]. rewrite Nat.min_0_r, Nat.add_0_r. reflexivity.
  - replace (3 * i + 3 <=? 3 * n)%nat with true by (symmetry; apply Nat.leb_le; lia). rewrite andb_true_r. destruct (Nat.ltb_spec ctr rlen) as [C|C].
    2:{ replace (rlen - ctr)%nat with 0%nat by lia. rewrite firstn_O, splice_nil. cbn [Nat.min]. now rewrite Nat.add_0_r. }
    rewrite rd_ok by lia. cbn [bind].
    assert (S3 : slice buf (3 * i) (3 * S d) = slice buf (3 * i) 3 ++ slice buf (3 * S i) (3 * d)).
    { replace (3 * S d)%nat with (3 + 3 * d)%nat by lia. rewrite slice_app. f_equal. f_equal. lia. }
    assert (L3 : length (slice buf (3 * i) 3) = 3%nat) by (apply length_slice; lia).
    assert (EK : kept (slice buf (3 * i) (3 * S d)) = filter (fun x => x <? KYBER_Q) [nth 0 (unpack12 (slice buf (3 * i) 3)) 0; nth 1 (unpack12 (slice buf (3 * i) 3)) 0] ++ kept (slice buf (3 * S i) (3 * d))).
    { rewrite S3. unfold kept. rewrite gmap_app by (auto; lia). apply filter_app. }
    rewrite EK. clear EK S3. set (b := slice buf (3 * i) 3) in *.
    replace (3 * i + 3)%nat with (3 * S i)%nat by lia. specialize (IH (S i) fuel). cbv zeta in IH. set (acc := kept (slice buf (3 * S i) (3 * d))) in *. cbn [filter].
    destruct (nth 0 (unpack12 b) 0 <? KYBER_Q).
    + rewrite put1 by lia. cbn [bind]. rewrite Nat.add_succ_r by lia || idtac. destruct (Nat.ltb_spec (S ctr) rlen) as [C2|C2]; cbn [andb].
      * destruct (nth 1 (unpack12 b) 0 <? KYBER_Q).
        -- rewrite put1 by ln. cbn [bind]. rewrite IH by ln.
           replace (rlen - ctr)%nat with (S (S (rlen - S (S ctr))))%nat by lia. cbn [app firstn length Nat.min]. assert (LF : (length (firstn (rlen - S (S ctr)) acc) <= rlen - S (S ctr))%nat) by apply firstn_le_length.
           f_equal. f_equal; [|lia]. rewrite !Nat.add_succ_r. rewrite spl1 by ln. rewrite spl1 by (cbn [length]; lia). reflexivity.
        -- cbn [bind]. rewrite IH by ln. replace (rlen - ctr)%nat with (S (rlen - S ctr))%nat by lia. cbn [app firstn length Nat.min]. assert (LF : (length (firstn (rlen - S ctr) acc) <= rlen - S ctr)%nat) by apply firstn_le_length.
           f_equal. f_equal; [|lia]. rewrite !Nat.add_succ_r. rewrite spl1 by lia. reflexivity.
      * cbn [bind]. rewrite IH by ln. replace (rlen - ctr)%nat with 1%nat by lia. replace (rlen - S ctr)%nat with 0%nat by lia. rewrite firstn_O, splice_nil. cbn [Nat.min app firstn length]. f_equal. f_equal; lia.
    + cbn [bind]. destruct (Nat.ltb_spec ctr rlen) as [_|?]; [|lia]. cbn [andb]. destruct (nth 1 (unpack12 b) 0 <? KYBER_Q).
      * rewrite put1 by lia. cbn [bind]. rewrite IH by ln. replace (rlen - ctr)%nat with (S (rlen - S ctr))%nat by lia. cbn [app firstn length Nat.min]. assert (LF : (length (firstn (rlen - S ctr) acc) <= rlen - S ctr)%nat) by apply firstn_le_length.
        f_equal. f_equal; [|lia]. rewrite !Nat.add_succ_r. rewrite spl1 by lia. reflexivity.
      * cbn [bind app]. rewrite IH by lia. reflexivity.
Qed.
Lemma RejUniform_ok r ro rlen buf n : (3 * n <= length buf)%nat -> (ro + rlen <= length r)%nat ->
  RejUniform r ro rlen buf (3 * n) = Ok (splice r ro (firstn rlen (kept (slice buf 0 (3 * n)))), Nat.min rlen (length (kept (slice buf 0 (3 * n))))).
Proof. intros H1 H2. unfold RejUniform. pose proof (rej_ok buf n H1 n 0 (S (3 * n)) r ro rlen 0 ltac:(lia) ltac:(lia) ltac:(lia) H2 ltac:(lia)) as E. cbv zeta in E. rewrite Nat.mul_0_r in E. rewrite E, !Nat.sub_0_r, !Nat.add_0_r. reflexivity. Qed.

(** * what the code samples for one entry *)
Fixpoint more (F : nat) (st b acc : list Z) : option (list Z) :=
  if (length acc <? 256)%nat then
    match F with
    | O => None
    | S k => let st := keccak 24 st in let b := firstn 32 (lane_bytes st) ++ skipn 32 b in more k st b (acc ++ kept b)
    end
  else Some (firstn 256 acc).
Lemma more_ok F : forall st buf b r acc blen, st_ok st -> (504 <= length buf)%nat -> slice buf 0 168 = b -> (blen = 504 \/ blen = 168)%nat ->
  r = splice (zeros 256) 0 (firstn 256 acc) -> match more F st b acc with
  | Some a => exists buf', gen_more F st buf r blen (Nat.min 256 (length acc)) = Ok (a, buf') /\ length buf' = length buf
  | None => gen_more F st buf r blen (Nat.min 256 (length acc)) = UB end.
Proof.
  induction F as [|F IH]; intros st buf b r acc blen Hs HL Hb Hbl Hr; cbn [more gen_more].
  - destruct (Nat.ltb_spec (length acc) 256) as [A|A]; [rewrite Nat.min_r by lia; destruct (Nat.ltb_spec (length acc) 256); [reflexivity|lia]|].
    rewrite Nat.min_l by lia. exists buf. split; [|reflexivity]. rewrite Nat.ltb_irrefl. rewrite Hr. rewrite splice_full; [reflexivity|]. rewrite firstn_length, length_zeros. lia.
  - destruct (Nat.ltb_spec (length acc) 256) as [A|A].
    2:{ rewrite Nat.min_l by lia. exists buf. split; [|reflexivity]. rewrite Nat.ltb_irrefl. rewrite Hr. rewrite splice_full; [reflexivity|]. rewrite firstn_length, length_zeros. lia. }
    rewrite Nat.min_r by lia. destruct (Nat.ltb_spec (length acc) 256) as [_|?]; [|lia]. replace (blen mod 3)%nat with 0%nat by (destruct Hbl as [-> | ->]; reflexivity). cbn [for_up bind].
    rewrite (Squeeze_ok 24 32 1) by (auto using r24; lia). cbn [bind squeeze Nat.iter]. rewrite app_nil_r. change (0 + 168)%nat with (3 * 56)%nat. cbn [Nat.iter].
    pose proof (keccak_ok 24 st Hs) as Hs'. set (st' := keccak 24 st) in *. pose proof (firstn_bytes_len st' 32 Hs' ltac:(lia)) as L32. set (w := firstn 32 (lane_bytes st')) in *.
    assert (EB : slice (splice buf 0 w) 0 168 = w ++ skipn 32 b).
    { rewrite <- Hb. clear - HL L32. assert (E : splice buf 0 w = w ++ skipn 32 buf) by (unfold splice; rewrite firstn_O, L32; reflexivity). rewrite E. clear E. unfold slice. rewrite !skipn_O.
      rewrite firstn_app, L32. rewrite firstn_all2 by lia. f_equal. rewrite skipn_firstn_comm. reflexivity. }
    assert (LZ : length r = 256%nat) by (rewrite Hr, length_splice, length_zeros; rewrite ?length_zeros, ?firstn_length; lia).
    rewrite RejUniform_ok by ln. change (3 * 56)%nat with 168%nat. rewrite EB. cbn [bind].
    set (nw := kept (w ++ skipn 32 b)).
    assert (ER : splice r (length acc) (firstn (256 - length acc) nw) = splice (zeros 256) 0 (firstn 256 (acc ++ nw))).
    { rewrite Hr. rewrite (firstn_all2 acc) by lia. rewrite firstn_app, (firstn_all2 acc) by lia. rewrite <- splice_splice_next by (rewrite length_zeros; pose proof (firstn_le_length (256 - length acc) nw); lia). reflexivity. }
    rewrite ER. replace (length acc + Nat.min (256 - length acc) (length nw))%nat with (Nat.min 256 (length (acc ++ nw))) by (rewrite app_length; lia).
    specialize (IH st' (splice buf 0 w) (w ++ skipn 32 b) _ (acc ++ nw) 168%nat Hs' ltac:(ln) EB ltac:(now right) eq_refl).
    fold nw. destruct (more F st' (w ++ skipn 32 b) (acc ++ nw)) as [a|].
    + destruct IH as (buf' & E & L). exists buf'. split; [exact E|]. rewrite L, length_splice by lia. reflexivity.
    + exact IH.
Qed.
Lemma some_inj {A} (x y : A) : Some x = Some y -> x = y. Proof. intros H. now inversion H. Qed.
Lemma more_len F : forall st b acc a, more F st b acc = Some a -> length a = 256%nat.
Proof.
  induction F as [|F IH]; intros st b acc a; cbn [more]; destruct (Nat.ltb_spec (length acc) 256) as [H|H].
  - discriminate.
  - intros E. apply some_inj in E. subst a. rewrite firstn_length. lia.
  - apply IH.
  - intros E. apply some_inj in E. subst a. rewrite firstn_length. lia.
Qed.
Definition coefs (p : list Z) : Prop := Forall (fun x => 0 <= x < Q) p.
Lemma coefs_firstn n p : coefs p -> coefs (firstn n p).
Proof. intros H. unfold coefs in *. rewrite <- (firstn_skipn n p) in H. now apply Forall_app in H. Qed.
Lemma kept_coefs b : coefs (kept b).
Proof.
  apply Forall_forall. intros x Hx. apply filter_In in Hx. destruct Hx as [Hx H]. apply Z.ltb_lt in H. change KYBER_Q with Q in H. split; [|exact H]. unfold gmap in Hx. apply in_concat in Hx. destruct Hx as (l & Hl & Hx).
  apply in_map_iff in Hl. destruct Hl as (c & <- & _). unfold unpack12 in Hx. destruct Hx as [<-|[<-|[]]]; apply Z.land_nonneg; right; lia.
Qed.
Lemma more_coefs F : forall st b acc a, coefs acc -> more F st b acc = Some a -> coefs a.
Proof.
  induction F as [|F IH]; intros st b acc a Ha; cbn [more]; destruct (length acc <? 256)%nat.
  - discriminate.
  - intros E. apply some_inj in E. subst a. now apply coefs_firstn.
  - apply IH. apply Forall_app. split; [exact Ha|apply kept_coefs].
  - intros E. apply some_inj in E. subst a. now apply coefs_firstn.
Qed.
Definition ent (F : nat) (seed : list Z) (x y : Z) : option (list Z) :=
  match Absorb 24 (seed ++ [x; y]) 0 34 168 31 zero_state with
  | Ok st => let b := squeeze (keccak 24) 168 3 (keccak 24 st) in more F (Nat.iter 3 (keccak 24) st) (slice b 0 168) (kept b)
  | _ => None
  end.
Lemma entry_ok F seed x y buf : bytes seed -> (32 <= length seed)%nat -> is_byte x -> is_byte y -> (504 <= length buf)%nat ->
  match ent F (slice seed 0 32) x y with
  | Some a => exists buf', gen_entry F seed x y buf = Ok (a, buf') /\ length buf' = length buf
  | None => gen_entry F seed x y buf = UB end.
Proof.
  intros Hs L Hx Hy HB. unfold gen_entry, KYBER_SYMBYTES, ent. rewrite wcopy_ok by (rewrite ?length_zeros; lia). cbn [bind]. set (sd := slice seed 0 32). assert (Ls : length sd = 32%nat) by (apply length_slice; lia).
  rewrite put1 by ln. cbn [bind]. rewrite put1 by ln. cbn [bind].
  assert (E : splice (splice (splice (zeros (32 + 2)) 0 sd) 32 [x]) (32 + 1) [y] = sd ++ [x; y]).
  { change (32 + 1)%nat with (S 32). rewrite spl1 by ln. replace 32%nat with (0 + length sd)%nat at 2 by lia. rewrite splice_splice_next by (rewrite length_zeros; cbn [length]; lia).
    apply splice_full. rewrite app_length, length_zeros, Ls. reflexivity. }
  rewrite E. clear E. assert (B : bytes (sd ++ [x; y])) by (apply bytes_app; split; [now apply bytes_slice|repeat (constructor; [assumption|]); constructor]).
  assert (L34 : length (sd ++ [x; y]) = 34%nat) by (rewrite app_length, Ls; reflexivity). rewrite L34. change (zeros 25) with zero_state.
  destruct (Absorb_ok 24 (sd ++ [x; y]) 0 34 168 31 zero_state r24 ltac:(lia) zero_state_ok B ltac:(lia) ltac:(red; lia)) as (st & -> & A & _). cbn [bind].
  rewrite Squeeze_ok by (auto using r24; lia). cbn [bind]. cbv zeta. pose proof (keccak_ok 24 st A) as Hs'. assert (L5 : length (squeeze (keccak 24) 168 3 (keccak 24 st)) = 504%nat) by (rewrite squeeze_len by (auto; lia); reflexivity).
  assert (Hi : st_ok (Nat.iter 3 (keccak 24) st)) by (now apply iter_ok). set (st3 := Nat.iter 3 (keccak 24) st) in *. set (b := squeeze (keccak 24) 168 3 (keccak 24 st)) in *.
  pose proof (RejUniform_ok (zeros 256) 0 256 (splice buf 0 b) 168 ltac:(ln) ltac:(ln)) as RJ. change (3 * 168)%nat with 504%nat in RJ. rewrite RJ. clear RJ. cbn [bind].
  assert (SB : slice (splice buf 0 b) 0 504 = b) by (rewrite <- L5 at 1; apply slice_splice_same; lia). rewrite SB.
  assert (S1 : slice (splice buf 0 b) 0 168 = slice b 0 168). { rewrite <- SB at 2. unfold slice. cbn [skipn]. rewrite firstn_firstn. reflexivity. }
  pose proof (more_ok F st3 (splice buf 0 b) (slice b 0 168) _ (kept b) 504%nat Hi ltac:(ln) S1 ltac:(now left) eq_refl) as M.
  destruct (more F st3 (slice b 0 168) (kept b)) as [a|].
  - destruct M as (buf' & E & L'). exists buf'. split; [exact E|]. rewrite L', length_splice by lia. reflexivity.
  - exact M.
Qed.
Lemma ent_len F seed x y a : ent F seed x y = Some a -> length a = 256%nat.
Proof. unfold ent. destruct (Absorb _ _ _ _ _ _ _); try discriminate. cbv zeta. apply more_len. Qed.
Lemma ent_coefs F seed x y a : ent F seed x y = Some a -> coefs a.
Proof. unfold ent. destruct (Absorb _ _ _ _ _ _ _); try discriminate. cbv zeta. apply more_coefs, kept_coefs. Qed.

(** * the matrix *)
Definition byte_of (i : nat) : Z := u8 (Z.of_nat i).
Lemma byte_of_ok i : is_byte (byte_of i). Proof. unfold byte_of, u8, is_byte. lia. Qed.
Definition entxy (F : nat) (seed : list Z) (tr : bool) (i j : nat) : option (list Z) := if tr then ent F seed (byte_of i) (byte_of j) else ent F seed (byte_of j) (byte_of i).
Lemma row_ok F seed tr i n : bytes seed -> (32 <= length seed)%nat -> forall j buf, (504 <= length buf)%nat ->
  (forall row buf', gen_row F seed tr i j n buf = Ok (row, buf') -> length buf' = length buf /\ Forall2 (fun j a => entxy F (slice seed 0 32) tr i j = Some a) (seq j n) row) /\
  (forall row, Forall2 (fun j a => entxy F (slice seed 0 32) tr i j = Some a) (seq j n) row -> exists buf', gen_row F seed tr i j n buf = Ok (row, buf') /\ length buf' = length buf).
Proof.
  intros Hs L. induction n as [|n IH]; intros j buf HB; cbn [gen_row seq].
  - split; [intros row buf' [= <- <-]; split; [reflexivity|constructor]|]. intros row H. inversion H; subst. exists buf. split; reflexivity.
  - assert (EQ : (if tr then gen_entry F seed (u8 (Z.of_nat i)) (u8 (Z.of_nat j)) buf else gen_entry F seed (u8 (Z.of_nat j)) (u8 (Z.of_nat i)) buf) = gen_entry F seed (if tr then byte_of i else byte_of j) (if tr then byte_of j else byte_of i) buf) by (destruct tr; reflexivity).
    rewrite EQ. clear EQ. pose proof (entry_ok F seed (if tr then byte_of i else byte_of j) (if tr then byte_of j else byte_of i) buf Hs L ltac:(destruct tr; apply byte_of_ok) ltac:(destruct tr; apply byte_of_ok) HB) as E.
    replace (ent F (slice seed 0 32) (if tr then byte_of i else byte_of j) (if tr then byte_of j else byte_of i)) with (entxy F (slice seed 0 32) tr i j) in E by (unfold entxy; destruct tr; reflexivity).
    split.
    + intros row buf' H. destruct (entxy F (slice seed 0 32) tr i j) as [a|] eqn:EE; [|rewrite E in H; discriminate]. destruct E as (b1 & E & L1). rewrite E in H. cbn [bind] in H.
      destruct (gen_row F seed tr i (S j) n b1) as [[t b2]| |] eqn:ER; cbn [bind] in H; try discriminate. injection H as <- <-. destruct (proj1 (IH (S j) b1 ltac:(lia)) _ _ ER) as [L2 F2]. split; [lia|]. now constructor.
    + intros row H. inversion H as [|? a ? t Ha Ht]; subst. rewrite Ha in E. destruct E as (b1 & E & L1). rewrite E. cbn [bind]. destruct (proj2 (IH (S j) b1 ltac:(lia)) _ Ht) as (b2 & -> & L2). exists b2. split; [reflexivity|lia].
Qed.
Lemma rows_ok F seed tr K n : bytes seed -> (32 <= length seed)%nat -> forall i buf, (504 <= length buf)%nat ->
  forall A, gen_rows F seed tr K i n buf = Ok A <-> Forall2 (fun i row => Forall2 (fun j a => entxy F (slice seed 0 32) tr i j = Some a) (seq 0 K) row) (seq i n) A.
Proof.
  intros Hs L. induction n as [|n IH]; intros i buf HB A; cbn [gen_rows seq].
  - split; [intros [= <-]; constructor|]. intros H. now inversion H.
  - destruct (row_ok F seed tr i K Hs L 0 buf HB) as [R1 R2]. split.
    + intros H. destruct (gen_row F seed tr i 0 K buf) as [[row b1]| |] eqn:E; cbn [bind] in H; try discriminate. destruct (R1 _ _ eq_refl) as [L1 F1].
      destruct (gen_rows F seed tr K (S i) n b1) as [t| |] eqn:E2; cbn [bind] in H; try discriminate. injection H as <-. constructor; [exact F1|]. apply (IH (S i) b1); [lia|exact E2].
    + intros H. inversion H as [|? row ? t Hr Ht]; subst. destruct (R2 row Hr) as (b1 & -> & L1). cbn [bind]. apply (IH (S i) b1) in Ht; [|lia]. now rewrite Ht.
Qed.
Lemma Matrix_ok F seed tr K A : bytes seed -> (32 <= length seed)%nat ->
  GenMatrix F seed tr K = Ok A <-> Forall2 (fun i row => Forall2 (fun j a => entxy F (slice seed 0 32) tr i j = Some a) (seq 0 K) row) (seq 0 K) A.
Proof. intros Hs L. unfold GenMatrix. apply rows_ok; auto. rewrite length_zeros. lia. Qed.
