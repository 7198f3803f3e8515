(** The functions of Model_Rijndael.v compute the steps of Spec_AES.v. *)
From Verif Require Import Base BaseLemmas Model_IntegerTools Model_Modes Model_Straight Model_RijndaelGen Model_Rijndael
  Spec_AES Proofs_AES Proofs_IntegerTools Proofs_Windows.
From Coq Require Import Btauto.
Open Scope Z_scope.

(** ** loops over columns *)
Lemma get_at (pre l : list Z) k i : i = (length pre + k)%nat -> get (pre ++ l) i = get l k.
Proof. intros ->. unfold get. rewrite nth_error_app2 by lia. now replace (length pre + k - length pre)%nat with k by lia. Qed.
Lemma upd_at (pre l : list Z) k v : upd (pre ++ l) (length pre + k) v = pre ++ upd l k v.
Proof. induction pre; cbn; auto. now rewrite IHpre. Qed.
Lemma put_at (pre l : list Z) k i v : i = (length pre + k)%nat -> (k < length l)%nat -> put (pre ++ l) i v = Ok (pre ++ upd l k v).
Proof. intros -> H. rewrite put_ok by (rewrite app_length; lia). now rewrite upd_at. Qed.

Definition cols (g : nat -> list Z -> list Z) (c n : nat) (s : list Z) : list Z :=
  concat (map (fun p => g (fst p) (snd p)) (combine (seq c n) (chunks 4 s))).
Lemma cols_cons g c n s : length s = (4 * S n)%nat -> cols g c (S n) s = g c (firstn 4 s) ++ cols g (S c) n (skipn 4 s).
Proof. intros H. unfold cols. rewrite (chunks_cons 4 s) by (try lia; intros ->; discriminate). reflexivity. Qed.

Lemma column_loop (f : nat -> list Z -> res (list Z)) (g : nat -> list Z -> list Z) n : forall c pre s,
  length pre = (4 * c)%nat -> length s = (4 * n)%nat -> bytes s ->
  (forall c' col, length (g c' col) = 4%nat \/ length col <> 4%nat) ->
  (forall c' pre col post, (c <= c' < c + n)%nat -> length pre = (4 * c')%nat -> length col = 4%nat -> bytes col ->
    f (4 * c')%nat (pre ++ col ++ post) = Ok (pre ++ g c' col ++ post)) ->
  for_up c n (fun c s => f (4 * c)%nat s) (pre ++ s) = Ok (pre ++ cols g c n s).
Proof.
  induction n as [|n IH]; intros c pre s Hp Hs Hb Hg Hf; cbn [for_up].
  - destruct s; [reflexivity|discriminate].
  - rewrite cols_cons by auto.
    assert (L4 : length (firstn 4 s) = 4%nat) by (rewrite firstn_length; lia).
    rewrite <- (firstn_skipn 4 s) at 1. rewrite Hf by (auto; try lia; now apply bytes_firstn). cbn [bind].
    rewrite app_assoc. destruct (Hg c (firstn 4 s)) as [G|G]; [|lia].
    rewrite (IH (S c)).
    + now rewrite <- app_assoc.
    + rewrite app_length. lia.
    + rewrite skipn_length. lia.
    + now apply bytes_skipn.
    + auto.
    + intros. apply Hf; auto. lia.
Qed.
Lemma columns_ok f g n s : length s = (4 * n)%nat -> bytes s ->
  (forall c' col, length (g c' col) = 4%nat \/ length col <> 4%nat) ->
  (forall c' pre col post, (c' < n)%nat -> length pre = (4 * c')%nat -> length col = 4%nat -> bytes col ->
    f (4 * c')%nat (pre ++ col ++ post) = Ok (pre ++ g c' col ++ post)) ->
  columns f s = Ok (cols g 0 n s).
Proof.
  intros Hs Hb Hg Hf. unfold columns.
  replace ((length s + 3) / 4)%nat with n by (rewrite Hs; apply (Nat.div_unique _ _ _ 3); lia).
  apply (column_loop f g n 0 [] s); auto. intros. apply Hf; auto. lia.
Qed.
Lemma cols_map g n : forall c s, length s = (4 * n)%nat -> cols (fun _ => g) c n s = concat (map g (chunks 4 s)).
Proof.
  induction n as [|n IH]; intros c s Hs; [destruct s; [reflexivity|discriminate]|].
  rewrite cols_cons by auto. rewrite (chunks_cons 4 s) by (try lia; intros ->; discriminate). cbn [map concat].
  rewrite IH; auto. rewrite skipn_length. lia.
Qed.

(** ** round keys *)
Definition rk_bytes (rk : list Z) : list Z := concat (map (be_bytes 4) rk).
Lemma be_bytes4 k : be_bytes 4 k = [u8 (wshr k 24); Z.land (u8 (wshr k 16)) 0xFF; Z.land (u8 (wshr k 8)) 0xFF; Z.land (u8 k) 0xFF].
Proof.
  unfold be_bytes. cbn [le_bytes rev app]. unfold wshr. rewrite !Z.shiftr_div_pow2 by lia.
  change 0xFF with (Z.ones 8). rewrite !Z.land_ones by lia. unfold u8. rewrite !Z.mod_mod by lia.
  rewrite !Z.div_div by lia. reflexivity.
Qed.
Lemma rk_len rk : length (rk_bytes rk) = (4 * length rk)%nat.
Proof. induction rk as [|x rk IH]; [reflexivity|]. unfold rk_bytes in *. cbn [map concat]. rewrite app_length, IH, length_be_bytes. cbn [length]. lia. Qed.
Lemma rk_bytes_bytes rk : bytes (rk_bytes rk).
Proof. induction rk as [|x rk IH]; [constructor|]. unfold rk_bytes. cbn [map concat]. apply Forall_app. split; [apply bytes_be_bytes|exact IH]. Qed.
Lemma rk_skip rk : forall j, skipn (4 * j) (rk_bytes rk) = rk_bytes (skipn j rk).
Proof.
  induction rk as [|x rk IH]; intros j; [now rewrite !skipn_nil|]. destruct j as [|j]; [reflexivity|].
  unfold rk_bytes. cbn [map concat skipn]. replace (4 * S j)%nat with (4 + 4 * j)%nat by lia.
  rewrite skipn_app, length_be_bytes, skipn_all2 by (rewrite length_be_bytes; lia).
  replace (4 + 4 * j - 4)%nat with (4 * j)%nat by lia. apply IH.
Qed.
Lemma rk_slice rk j n : (j < length rk)%nat ->
  slice (rk_bytes rk) (4 * j) (4 * S n) = be_bytes 4 (nth j rk 0) ++ slice (rk_bytes rk) (4 * S j) (4 * n).
Proof.
  intros H. unfold slice. rewrite !rk_skip.
  replace (skipn j rk) with (nth j rk 0 :: skipn (S j) rk).
  - unfold rk_bytes at 1. cbn [map concat]. fold (rk_bytes (skipn (S j) rk)).
    replace (4 * S n)%nat with (length (be_bytes 4 (nth j rk 0%Z)) + 4 * n)%nat by (rewrite length_be_bytes; lia).
    now rewrite firstn_app_2.
  - revert j H. induction rk as [|x rk IH]; intros j H; cbn [length] in H; [lia|]. destruct j; [reflexivity|].
    cbn [nth]. change (skipn (S j) (x :: rk)) with (skipn j rk). change (skipn (S (S j)) (x :: rk)) with (skipn (S j) rk).
    apply IH. lia.
Qed.
Lemma cols_xor rk off n : forall c s, length s = (4 * n)%nat -> (off + c + n <= length rk)%nat ->
  cols (fun c col => xorl col (be_bytes 4 (nth (off + c) rk 0))) c n s = xorl s (slice (rk_bytes rk) (4 * (off + c)) (4 * n)).
Proof.
  induction n as [|n IH]; intros c s Hs Hk; [destruct s; [reflexivity|discriminate]|].
  rewrite cols_cons by auto. rewrite IH by (rewrite ?skipn_length; lia).
  rewrite (rk_slice rk (off + c)) by lia. replace (off + S c)%nat with (S (off + c)) by lia.
  rewrite <- (firstn_skipn 4 s) at 3. rewrite xorl_app; [reflexivity|].
  rewrite length_be_bytes, firstn_length. lia.
Qed.
Lemma KeyAddition_ok s rk off n : length s = (4 * n)%nat -> bytes s -> (off + n <= length rk)%nat ->
  KeyAddition s rk off = Ok (xorl s (slice (rk_bytes rk) (4 * off) (length s))).
Proof.
  intros Hs Hb Hk. unfold KeyAddition.
  rewrite (columns_ok _ (fun c col => xorl col (be_bytes 4 (nth (off + c) rk 0))) n s); auto.
  - rewrite cols_xor by (auto; lia). rewrite Nat.add_0_r, Hs. reflexivity.
  - intros c col. rewrite length_xorl, length_be_bytes. lia.
  - intros c pre col post Hc Hp Hcol _. destruct (four col Hcol) as (a & b & c0 & d & ->).
    replace (4 * c / 4)%nat with c by (rewrite Nat.mul_comm, Nat.div_mul; lia).
    rewrite (get_ok _ _ 0) by lia. cbn [bind]. rewrite be_bytes4. set (k := nth (off + c) rk 0). cbn [app].
    rewrite (get_at _ _ 0) by lia. cbn [get nth_error bind]. rewrite (put_at _ _ 0) by (cbn [length]; lia). cbn [upd bind].
    rewrite (get_at _ _ 1) by lia. cbn [get nth_error bind]. rewrite (put_at _ _ 1) by (cbn [length]; lia). cbn [upd bind].
    rewrite (get_at _ _ 2) by lia. cbn [get nth_error bind]. rewrite (put_at _ _ 2) by (cbn [length]; lia). cbn [upd bind].
    rewrite (get_at _ _ 3) by lia. cbn [get nth_error bind]. rewrite (put_at _ _ 3) by (cbn [length]; lia). cbn [upd bind].
    reflexivity.
Qed.

(** ** substitution *)
Lemma substitute_loop t : forall s pre, (forall x, is_byte x -> (Z.to_nat x < length t)%nat) -> bytes s ->
  for_up (length pre) (length s) (fun i s => a <- get s i ;; b <- get t (Z.to_nat a) ;; put s i b) (pre ++ s) =
  Ok (pre ++ map (fun x => nth (Z.to_nat x) t 0) s).
Proof.
  induction s as [|x s IH]; intros pre Ht Hb; cbn [length for_up map]; [reflexivity|]. inversion Hb; subst.
  rewrite (get_at _ _ 0) by lia. cbn [get nth_error bind]. rewrite (get_ok t _ 0) by auto. cbn [bind].
  rewrite (put_at _ _ 0) by (cbn [length]; lia). cbn [upd bind].
  set (y := nth (Z.to_nat x) t 0). change (pre ++ y :: s) with (pre ++ [y] ++ s). rewrite app_assoc.
  replace (S (length pre)) with (length (pre ++ [y])) by (rewrite app_length; cbn; lia).
  rewrite IH by auto. now rewrite <- app_assoc.
Qed.
Lemma substitute_ok t f s : bytes s -> length t = 256%nat -> (forall x, is_byte x -> nth (Z.to_nat x) t 0 = f x) ->
  substitute t s = Ok (map f s).
Proof.
  intros Hb Ht Hf. unfold substitute. pose proof (substitute_loop t s [] ) as E. cbn [length app] in E. rewrite E; auto.
  - f_equal. apply map_ext_in. intros x Hx. apply Hf. exact (proj1 (Forall_forall _ _) Hb x Hx).
  - intros x Hx. red in Hx. rewrite Ht. lia.
Qed.
Lemma SBox_ok x : is_byte x -> nth (Z.to_nat x) SBox 0 = sbox x.
Proof. intros H. apply Z.eqb_eq. exact (each_byte (fun x => nth (Z.to_nat x) SBox 0 =? sbox x) ltac:(vm_compute; reflexivity) x H). Qed.
Lemma ISBox_ok x : is_byte x -> nth (Z.to_nat x) ISBox 0 = inv_sbox x.
Proof. intros H. apply Z.eqb_eq. exact (each_byte (fun x => nth (Z.to_nat x) ISBox 0 =? inv_sbox x) ltac:(vm_compute; reflexivity) x H). Qed.
Lemma Substitution_ok s : bytes s -> Substitution s = Ok (sub_bytes s).
Proof. intros. apply substitute_ok; auto. exact SBox_ok. Qed.
Lemma InvSubBytes_ok s : bytes s -> InvSubBytes s = Ok (inv_sub_bytes s).
Proof. intros. apply substitute_ok; auto. exact ISBox_ok. Qed.

(** ** row shifts *)
Ltac destruct_len s H := repeat (destruct s as [|? s]; [discriminate H|cbn [length] in H; apply Nat.succ_inj in H]); destruct s; [clear H|discriminate H].
Lemma ShiftRows128_ok s : length s = 16%nat -> ShiftRows128 s = Ok (shift_rows [0; 1; 2; 3]%nat s).
Proof. intros H. destruct_len s H. vm_compute. reflexivity. Qed.
Lemma InvShiftRows_ok s : length s = 16%nat -> InvShiftRows s = Ok (inv_shift_rows [0; 1; 2; 3]%nat s).
Proof. intros H. destruct_len s H. vm_compute. reflexivity. Qed.
Lemma ShiftRows256_ok s : length s = 32%nat -> ShiftRows256 s = Ok (shift_rows [0; 1; 3; 4]%nat s).
Proof. intros H. destruct_len s H. vm_compute. reflexivity. Qed.

(** ** MixColumns *)
Lemma column_at f i pre a b c d post : i = length pre ->
  column f i (pre ++ [a; b; c; d] ++ post) = let '(t0, t1, t2, t3) := f a b c d in Ok (pre ++ [t0; t1; t2; t3] ++ post).
Proof.
  intros Hp. unfold column. cbn [app].
  rewrite (get_at _ _ 0) by lia. cbn [get nth_error bind]. rewrite (get_at _ _ 1) by lia. cbn [get nth_error bind].
  rewrite (get_at _ _ 2) by lia. cbn [get nth_error bind]. rewrite (get_at _ _ 3) by lia. cbn [get nth_error bind].
  destruct (f a b c d) as [[[t0 t1] t2] t3].
  rewrite (put_at _ _ 0) by (cbn [length]; lia). cbn [upd bind]. rewrite (put_at _ _ 1) by (cbn [length]; lia). cbn [upd bind].
  rewrite (put_at _ _ 2) by (cbn [length]; lia). cbn [upd bind]. rewrite (put_at _ _ 3) by (cbn [length]; lia). cbn [upd bind]. reflexivity.
Qed.
Lemma wshl_bits w x n i : 0 <= n -> 0 <= i -> 0 < w -> Z.testbit (wshl w x n) i = (i <? w) && Z.testbit x (i - n).
Proof.
  intros Hn Hi Hw. unfold wshl. destruct (Z.ltb_spec i w).
  - rewrite Z.mod_pow2_bits_low by lia. now rewrite Z.shiftl_spec by lia.
  - now rewrite Z.mod_pow2_bits_high by lia.
Qed.
(** the reductions are determined by the bits above the byte *)
Definition red1 (t : Z) : Z := u8 (Z.lxor t (Z.land (u32 (wnot 32 (wshr t 8) + 1)) 0x11B)).
Lemma below (n : nat) (p : Z -> bool) : forallb p (map Z.of_nat (seq 0 n)) = true -> forall x, 0 <= x < Z.of_nat n -> p x = true.
Proof.
  intros H x Hx. rewrite forallb_forall in H. apply H. apply in_map_iff. exists (Z.to_nat x).
  split; [lia|]. apply in_seq. lia.
Qed.
Definition pick (b : bool) (k : Z) : Z := if b then k else 0.
Lemma red1_bits t : 0 <= t < 512 -> red1 t = Z.lxor t (pick (Z.testbit t 8) 0x11B).
Proof. intros H. apply Z.eqb_eq. exact (below 512 (fun t => red1 t =? Z.lxor t (pick (Z.testbit t 8) 0x11B)) ltac:(vm_compute; reflexivity) t H). Qed.
Definition red3_spec (t : Z) : Z :=
  Z.lxor (Z.land t 255) (Z.lxor (pick (Z.testbit t 8) 0x1B) (Z.lxor (pick (Z.testbit t 9) 0x36) (pick (Z.testbit t 10) 0x6C))).
Lemma red3_bits t : 0 <= t < 2048 -> Gf256Reduce t = red3_spec t.
Proof. intros H. apply Z.eqb_eq. exact (below (8 * 256) (fun t => Gf256Reduce t =? red3_spec t) ltac:(vm_compute; reflexivity) t H). Qed.
Lemma pick_xor a b k : pick (xorb a b) k = Z.lxor (pick a k) (pick b k).
Proof. destruct a, b; cbn [xorb pick]; rewrite ?Z.lxor_0_l, ?Z.lxor_0_r, ?Z.lxor_nilpotent; reflexivity. Qed.
Lemma red1_lxor a b : 0 <= a < 512 -> 0 <= b < 512 -> red1 (Z.lxor a b) = Z.lxor (red1 a) (red1 b).
Proof.
  intros Ha Hb. rewrite !red1_bits by (auto; apply (lxor_range 9); auto; lia). rewrite Z.lxor_spec, pick_xor. xbits.
Qed.
Lemma red3_lxor a b : 0 <= a < 2048 -> 0 <= b < 2048 -> Gf256Reduce (Z.lxor a b) = Z.lxor (Gf256Reduce a) (Gf256Reduce b).
Proof.
  intros Ha Hb. rewrite !red3_bits by (auto; apply (lxor_range 11); auto; lia). unfold red3_spec. rewrite !Z.lxor_spec, !pick_xor.
  replace (Z.land (Z.lxor a b) 255) with (Z.lxor (Z.land a 255) (Z.land b 255)); [xbits|].
  apply Z.bits_inj'; intros ? ?; rewrite ?Z.lxor_spec, ?Z.land_spec, ?Z.lxor_spec; btauto.
Qed.
Lemma wshl_byte x k : is_byte x -> 0 <= k <= 3 -> wshl 32 x k = x * 2 ^ k.
Proof.
  intros Hx Hk. red in Hx. unfold wshl. rewrite Z.shiftl_mul_pow2 by lia. apply Z.mod_small.
  assert (1 <= 2 ^ k <= 2 ^ 3) by (split; [apply (Z.pow_le_mono_r 2 0 k)|apply Z.pow_le_mono_r]; lia). nia.
Qed.
Lemma wshl_range x k n : is_byte x -> 0 <= k <= n -> n <= 3 -> 0 <= wshl 32 x k < 256 * 2 ^ n.
Proof.
  intros Hx Hk Hn. rewrite wshl_byte by (auto; lia). red in Hx.
  assert (0 < 2 ^ k <= 2 ^ n) by (split; [apply Z.pow_pos_nonneg|apply Z.pow_le_mono_r]; lia). nia.
Qed.
Lemma xor512 a b : 0 <= a < 512 -> 0 <= b < 512 -> 0 <= Z.lxor a b < 512.
Proof. apply (lxor_range 9). lia. Qed.
Lemma xor2048 a b : 0 <= a < 2048 -> 0 <= b < 2048 -> 0 <= Z.lxor a b < 2048.
Proof. apply (lxor_range 11). lia. Qed.
Lemma one_byte (f g : Z -> Z) : forallb (fun x => f x =? g x) (map Z.of_nat (seq 0 256)) = true -> forall x, is_byte x -> f x = g x.
Proof. intros H x Hx. apply Z.eqb_eq. exact (each_byte _ H x Hx). Qed.

Lemma r1_0 x : is_byte x -> red1 x = gmul 1 x.
Proof. apply (one_byte red1 (gmul 1)). vm_compute. reflexivity. Qed.
Lemma r1_1 x : is_byte x -> red1 (wshl 32 x 1) = gmul 2 x.
Proof. apply (one_byte (fun x => red1 (wshl 32 x 1)) (gmul 2)). vm_compute. reflexivity. Qed.
Lemma g3 x : is_byte x -> gmul 3 x = Z.lxor (gmul 1 x) (gmul 2 x).
Proof. apply (one_byte (gmul 3) (fun x => Z.lxor (gmul 1 x) (gmul 2 x))). vm_compute. reflexivity. Qed.
Lemma r3_0 x : is_byte x -> Gf256Reduce x = gmul 1 x.
Proof. apply (one_byte Gf256Reduce (gmul 1)). vm_compute. reflexivity. Qed.
Lemma r3_1 x : is_byte x -> Gf256Reduce (wshl 32 x 1) = gmul 2 x.
Proof. apply (one_byte (fun x => Gf256Reduce (wshl 32 x 1)) (gmul 2)). vm_compute. reflexivity. Qed.
Lemma r3_2 x : is_byte x -> Gf256Reduce (wshl 32 x 2) = gmul 4 x.
Proof. apply (one_byte (fun x => Gf256Reduce (wshl 32 x 2)) (gmul 4)). vm_compute. reflexivity. Qed.
Lemma r3_3 x : is_byte x -> Gf256Reduce (wshl 32 x 3) = gmul 8 x.
Proof. apply (one_byte (fun x => Gf256Reduce (wshl 32 x 3)) (gmul 8)). vm_compute. reflexivity. Qed.
Lemma g14 x : is_byte x -> gmul 14 x = Z.lxor (gmul 2 x) (Z.lxor (gmul 4 x) (gmul 8 x)).
Proof. apply (one_byte (gmul 14) (fun x => Z.lxor (gmul 2 x) (Z.lxor (gmul 4 x) (gmul 8 x)))). vm_compute. reflexivity. Qed.
Lemma g11 x : is_byte x -> gmul 11 x = Z.lxor (gmul 1 x) (Z.lxor (gmul 2 x) (gmul 8 x)).
Proof. apply (one_byte (gmul 11) (fun x => Z.lxor (gmul 1 x) (Z.lxor (gmul 2 x) (gmul 8 x)))). vm_compute. reflexivity. Qed.
Lemma g13 x : is_byte x -> gmul 13 x = Z.lxor (gmul 1 x) (Z.lxor (gmul 4 x) (gmul 8 x)).
Proof. apply (one_byte (gmul 13) (fun x => Z.lxor (gmul 1 x) (Z.lxor (gmul 4 x) (gmul 8 x)))). vm_compute. reflexivity. Qed.
Lemma g9 x : is_byte x -> gmul 9 x = Z.lxor (gmul 1 x) (gmul 8 x).
Proof. apply (one_byte (gmul 9) (fun x => Z.lxor (gmul 1 x) (gmul 8 x))). vm_compute. reflexivity. Qed.

Ltac bound512 := match goal with
  | |- 0 <= Z.lxor _ _ < 512 => apply xor512; bound512
  | |- 0 <= wshl 32 _ _ < 512 => apply (wshl_range _ _ 1); [assumption|lia|lia]
  | H : is_byte ?x |- 0 <= ?x < 512 => clear - H; red in H; lia end.
Ltac bound2048 := match goal with
  | |- 0 <= Z.lxor _ _ < 2048 => apply xor2048; bound2048
  | |- 0 <= wshl 32 _ _ < 2048 => apply (wshl_range _ _ 3); [assumption|lia|lia]
  | H : is_byte ?x |- 0 <= ?x < 2048 => clear - H; red in H; lia end.
Lemma bytes_four a b c d : bytes [a; b; c; d] -> is_byte a /\ is_byte b /\ is_byte c /\ is_byte d.
Proof. unfold bytes. rewrite !Forall_cons_iff. tauto. Qed.
Ltac bytes4 Hb := apply bytes_four in Hb; destruct Hb as (? & ? & ? & ?).

Lemma MixColumns_ok s n : length s = (4 * n)%nat -> bytes s -> MixColumns s = Ok (mix_columns s).
Proof.
  intros Hs Hb. unfold MixColumns, mix_columns. rewrite <- (cols_map _ n 0) by auto.
  apply columns_ok; auto.
  intros c pre col post _ Hp Hcol Hbc. destruct (four col Hcol) as (s0 & s1 & s2 & s3 & ->). bytes4 Hbc.
  rewrite column_at by lia. cbv zeta. cbn [xs tl hd fold_left].
  fold (red1 (Z.lxor (Z.lxor (Z.lxor (Z.lxor (wshl 32 s0 1) s1) (wshl 32 s1 1)) s2) s3)).
  fold (red1 (Z.lxor (Z.lxor (Z.lxor (Z.lxor s0 (wshl 32 s1 1)) s2) (wshl 32 s2 1)) s3)).
  fold (red1 (Z.lxor (Z.lxor (Z.lxor (Z.lxor s0 s1) (wshl 32 s2 1)) s3) (wshl 32 s3 1))).
  fold (red1 (Z.lxor (Z.lxor (Z.lxor (Z.lxor s0 (wshl 32 s0 1)) s1) s2) (wshl 32 s3 1))).
  do 2 f_equal. f_equal. unfold mix_column. cbn -[gmul Z.lxor red1 wshl].
  rewrite !red1_lxor by bound512. rewrite !r1_1, !r1_0, !g3 by assumption.
  repeat (apply f_equal2; [xbits|]). reflexivity.
Qed.
Lemma InvMixColumns_ok s n : length s = (4 * n)%nat -> bytes s -> InvMixColumns s = Ok (inv_mix_columns s).
Proof.
  intros Hs Hb. unfold InvMixColumns, inv_mix_columns. rewrite <- (cols_map _ n 0) by auto.
  apply columns_ok; auto.
  intros c pre col post _ Hp Hcol Hbc. destruct (four col Hcol) as (s0 & s1 & s2 & s3 & ->). bytes4 Hbc.
  rewrite column_at by lia. cbv zeta. cbn [xs tl hd fold_left].
  do 2 f_equal. f_equal. unfold mix_column. cbn -[gmul Z.lxor Gf256Reduce wshl].
  rewrite !red3_lxor by bound2048. rewrite !r3_1, !r3_2, !r3_3, !r3_0, !g14, !g11, !g13, !g9 by assumption.
  repeat (apply f_equal2; [xbits|]). reflexivity.
Qed.
