(** The unrolled Threefish permutations against Spec_Threefish. *)
From Verif Require Import BaseLemmas Spec_ChaCha Spec_Threefish Model_Straight Model_ThreefishGen Model_Threefish.
Open Scope Z_scope.

(** * the programs as folds *)
(** register of key word and tweak word *)
Definition kr (n i : nat) : sx := R (n + i).
Definition tr (n i : nat) : sx := R (n + S n + i).
(** the expressions added to word [i] by subkey [s] *)
Definition inject (n s : nat) (c : option Z) (i : nat) : list sx :=
  kr n ((s + i) mod S n) ::
  (if (i =? n - 3)%nat then [tr n (s mod 3)] else if (i =? n - 2)%nat then [tr n ((s + 1) mod 3)]
   else if (i =? n - 1)%nat then match c with Some c => [K c] | None => [] end else []).
Definition sum (e : sx) (l : list sx) : sx := fold_left Ad l e.
Definition sumof (l : list sx) : sx := match l with e :: l => sum e l | [] => K 0 end.
Definition injmix (n s : nat) (c : option Z) (j : nat) (r : Z) : prog :=
  let a := (2 * j)%nat in let b := (2 * j + 1)%nat in
  [(b, Ad (R b) (sumof (inject n s c b))); (a, Ad (R a) (sum (R b) (inject n s c a))); (b, Xo (RLo (R b) r) (R a))].
Definition mixp (t : nat * nat * Z) : prog :=
  let '(a, b, r) := t in [(a, Ad (R a) (R b)); (b, Xo (RLo (R b) r) (R a))].
(** one group of four rounds: rotations of the first, then (a, b, r) for the other three *)
Definition seg (n : nat) (g : list Z * list (nat * nat * Z)) (s : nat) : prog :=
  concat (map (fun p => injmix n s (if (s =? 0)%nat then None else Some (Z.of_nat s)) (fst p) (snd p)) (combine (seq 0 (length (fst g))) (fst g)))
  ++ concat (map mixp (snd g)).
Definition segs (n : nat) (g g' : list Z * list (nat * nat * Z)) (k : nat) : prog :=
  concat (map (fun s => seg n (if Nat.even s then g else g') s) (seq 0 k)).
Definition load (o d n : nat) : prog := map (fun i => ((d + i)%nat, R (o + i))) (seq 0 n).
(** keys from [ko], tweak from [to] *)
Definition header (n ko to : nat) : prog :=
  load ko n n ++ [((n + n)%nat, Xo (fold_left (fun e i => Xo e (kr n i)) (seq 1 (n - 1)) (kr n 0)) (K key_parity))] ++
  load to (n + S n) 2 ++ [((n + S n + 2)%nat, Xo (R to) (R (to + 1)))].
Definition footer (n so s : nat) (c : Z) : prog := map (fun i => ((so + i)%nat, sum (R i) (inject n s (Some c) i))) (seq 0 n).

Definition g256 : list Z * list (nat * nat * Z) := ([14; 16], [(0%nat, 3%nat, 52); (2%nat, 1%nat, 57); (0%nat, 1%nat, 23); (2%nat, 3%nat, 40); (0%nat, 3%nat, 5); (2%nat, 1%nat, 37)]).
Definition g256' : list Z * list (nat * nat * Z) := ([25; 33], [(0%nat, 3%nat, 46); (2%nat, 1%nat, 12); (0%nat, 1%nat, 58); (2%nat, 3%nat, 22); (0%nat, 3%nat, 32); (2%nat, 1%nat, 32)]).
Definition g512 : list Z * list (nat * nat * Z) := ([46; 36; 19; 37], [(2%nat, 1%nat, 33); (4%nat, 7%nat, 27); (6%nat, 5%nat, 14); (0%nat, 3%nat, 42); (4%nat, 1%nat, 17); (6%nat, 3%nat, 49); (0%nat, 5%nat, 36); (2%nat, 7%nat, 39); (6%nat, 1%nat, 44); (0%nat, 7%nat, 9); (2%nat, 5%nat, 54); (4%nat, 3%nat, 56)]).
Definition g512' : list Z * list (nat * nat * Z) := ([39; 30; 34; 24], [(2%nat, 1%nat, 13); (4%nat, 7%nat, 50); (6%nat, 5%nat, 10); (0%nat, 3%nat, 17); (4%nat, 1%nat, 25); (6%nat, 3%nat, 29); (0%nat, 5%nat, 39); (2%nat, 7%nat, 43); (6%nat, 1%nat, 8); (0%nat, 7%nat, 35); (2%nat, 5%nat, 56); (4%nat, 3%nat, 22)]).
Definition g1024 : list Z * list (nat * nat * Z) := ([24; 13; 8; 47; 8; 17; 22; 37], [(0%nat, 9%nat, 38); (2%nat, 13%nat, 19); (6%nat, 11%nat, 10); (4%nat, 15%nat, 55); (10%nat, 7%nat, 49); (12%nat, 3%nat, 18); (14%nat, 5%nat, 23); (8%nat, 1%nat, 52); (0%nat, 7%nat, 33); (2%nat, 5%nat, 4); (4%nat, 3%nat, 51); (6%nat, 1%nat, 13); (12%nat, 15%nat, 34); (14%nat, 13%nat, 41); (8%nat, 11%nat, 59); (10%nat, 9%nat, 17); (0%nat, 15%nat, 5); (2%nat, 11%nat, 20); (6%nat, 13%nat, 48); (4%nat, 9%nat, 41); (14%nat, 1%nat, 47); (8%nat, 5%nat, 28); (10%nat, 3%nat, 16); (12%nat, 7%nat, 25)]).
Definition g1024' : list Z * list (nat * nat * Z) := ([41; 9; 37; 31; 12; 47; 44; 30], [(0%nat, 9%nat, 16); (2%nat, 13%nat, 34); (6%nat, 11%nat, 56); (4%nat, 15%nat, 51); (10%nat, 7%nat, 4); (12%nat, 3%nat, 53); (14%nat, 5%nat, 42); (8%nat, 1%nat, 41); (0%nat, 7%nat, 31); (2%nat, 5%nat, 44); (4%nat, 3%nat, 47); (6%nat, 1%nat, 46); (12%nat, 15%nat, 19); (14%nat, 13%nat, 42); (8%nat, 11%nat, 44); (10%nat, 9%nat, 25); (0%nat, 15%nat, 9); (2%nat, 11%nat, 48); (6%nat, 13%nat, 35); (4%nat, 9%nat, 52); (14%nat, 1%nat, 23); (8%nat, 5%nat, 31); (10%nat, 3%nat, 37); (12%nat, 7%nat, 20)]).

Lemma tsx256_is : tsx256_U = load 12 0 2 ++ [(2%nat, K (2 ^ 64 - 1)); (3%nat, K (2 ^ 64 - 1))] ++ header 4 14 18 ++ segs 4 g256 g256' 18 ++ footer 4 20 18 18.
Proof. vm_compute. reflexivity. Qed.
Lemma tsx512_is : tsx512_U = load 20 0 2 ++ map (fun i => (i, K (2 ^ 64 - 1))) (seq 2 6) ++ header 8 22 30 ++ segs 8 g512 g512' 24 ++ footer 8 32 18 24.
Proof. vm_compute. reflexivity. Qed.
Lemma tsx1024_is : tsx1024_U = load 36 0 2 ++ map (fun i => (i, K (2 ^ 64 - 1))) (seq 2 14) ++ header 16 38 54 ++ segs 16 g1024 g1024' 30 ++ footer 16 56 20 30.
Proof. vm_compute. reflexivity. Qed.
Lemma skein256_is : skein256_U = load 12 0 4 ++ header 4 18 16 ++ segs 4 g256 g256' 18 ++ footer 4 18 18 18.
Proof. vm_compute. reflexivity. Qed.
Lemma skein512_is : skein512_U = load 20 0 8 ++ header 8 30 28 ++ segs 8 g512 g512' 18 ++ footer 8 30 18 18.
Proof. vm_compute. reflexivity. Qed.
Lemma skein1024_is : skein1024_U = load 36 0 16 ++ header 16 54 52 ++ segs 16 g1024 g1024' 20 ++ footer 16 54 20 20.
Proof. vm_compute. reflexivity. Qed.

Lemma exec_app w p q s : exec w (p ++ q) s = exec w q (exec w p s).
Proof. unfold exec. apply fold_left_app. Qed.

(** * one round: the program leaves the words in place, the cipher permutes them *)
Definition view (sg : list nat) (c : list Z) : list Z := map (fun i => nth i c 0) sg.
Fixpoint open4 (n : nat) (c : list Z) : Prop :=
  match n, c with O, [] => True | S n, _ :: c => open4 n c | _, _ => False end.
Ltac open_words c H := repeat (destruct c as [|? c]; [discriminate H|]); destruct c; [|discriminate H].

Definition round_ok (n : nat) (pi sg sg' : list nat) (l : prog) (rs : list Z) : Prop :=
  forall c t, length c = n -> exists c', length c' = n /\ exec 64 l (c ++ t) = c' ++ t /\
    view sg' c' = view pi (mix_words rs (view sg c)).
Fixpoint comp (sg pi : list nat) : list nat := match pi with [] => [] | i :: pi => nth i sg O :: comp sg pi end.
Definition pi_pow (F : tfish) (k : nat) : list nat := Nat.iter k (fun sg => comp sg (f_pi F)) (seq 0 (f_n F)).
Definition part (m k : nat) (l : list (nat * nat * Z)) : prog := concat (map mixp (firstn m (skipn (k * m) l))).

(** three rounds of a group; [z] is 0 or 4 *)
Definition three_ok (F : tfish) (g : list Z * list (nat * nat * Z)) (z : nat) : Prop :=
  forall k, In k [1; 2; 3]%nat -> round_ok (f_n F) (f_pi F) (pi_pow F k) (pi_pow F (S k)) (part (f_n F / 2) (k - 1) (snd g)) (nth (z + k) (f_rots F) []).
Ltac run_part := cbv [f_n threefish256 threefish512 threefish1024 Nat.div Nat.divmod fst snd part exec fold_left exec1 upd mixp map concat app firstn skipn ev nth Nat.mul Nat.add Nat.sub g256 g256' g512 g512' g1024 g1024']; reflexivity.
Lemma t256 : three_ok threefish256 g256 0.
Proof. intros k Hk; repeat (destruct Hk as [<-|Hk]); [| | |destruct Hk]; intros c t H; open_words c H; (eexists [_; _; _; _]; split; [reflexivity|]; split; [run_part|reflexivity]). Qed.
Lemma t256' : three_ok threefish256 g256' 4.
Proof. intros k Hk; repeat (destruct Hk as [<-|Hk]); [| | |destruct Hk]; intros c t H; open_words c H; (eexists [_; _; _; _]; split; [reflexivity|]; split; [run_part|reflexivity]). Qed.
Lemma t512 : three_ok threefish512 g512 0.
Proof. intros k Hk; repeat (destruct Hk as [<-|Hk]); [| | |destruct Hk]; intros c t H; open_words c H; (eexists [_; _; _; _; _; _; _; _]; split; [reflexivity|]; split; [run_part|reflexivity]). Qed.
Lemma t512' : three_ok threefish512 g512' 4.
Proof. intros k Hk; repeat (destruct Hk as [<-|Hk]); [| | |destruct Hk]; intros c t H; open_words c H; (eexists [_; _; _; _; _; _; _; _]; split; [reflexivity|]; split; [run_part|reflexivity]). Qed.
Lemma t1024 : three_ok threefish1024 g1024 0.
Proof. intros k Hk; repeat (destruct Hk as [<-|Hk]); [| | |destruct Hk]; intros c t H; open_words c H; (eexists [_; _; _; _; _; _; _; _; _; _; _; _; _; _; _; _]; split; [reflexivity|]; split; [run_part|reflexivity]). Qed.
Lemma t1024' : three_ok threefish1024 g1024' 4.
Proof. intros k Hk; repeat (destruct Hk as [<-|Hk]); [| | |destruct Hk]; intros c t H; open_words c H; (eexists [_; _; _; _; _; _; _; _; _; _; _; _; _; _; _; _]; split; [reflexivity|]; split; [run_part|reflexivity]). Qed.

(** * the subkey and the first round of a group *)
(** where the words come from: [ki i] indexes the key words, [ti], [tj] the tweak words *)
Definition inject' (n : nat) (ki : nat -> nat) (ti tj : nat) (c : option Z) (i : nat) : list sx :=
  kr n (ki i) ::
  (if (i =? n - 3)%nat then [tr n ti] else if (i =? n - 2)%nat then [tr n tj]
   else if (i =? n - 1)%nat then match c with Some c => [K c] | None => [] end else []).
Definition injmix' (n : nat) (ki : nat -> nat) (ti tj : nat) (c : option Z) (j : nat) (r : Z) : prog :=
  let a := (2 * j)%nat in let b := (2 * j + 1)%nat in
  [(b, Ad (R b) (sumof (inject' n ki ti tj c b))); (a, Ad (R a) (sum (R b) (inject' n ki ti tj c a))); (b, Xo (RLo (R b) r) (R a))].
Definition first (n : nat) (ki : nat -> nat) (ti tj : nat) (c : option Z) (rs : list Z) : prog :=
  concat (map (fun p => injmix' n ki ti tj c (fst p) (snd p)) (combine (seq 0 (length rs)) rs)).
(** the words of the subkey *)
Definition sword (n : nat) (kw : nat -> Z) (t0 t1 c : Z) (i : nat) : Z :=
  if (i =? n - 3)%nat then add64 (kw i) t0
  else if (i =? n - 2)%nat then add64 (kw i) t1
  else if (i =? n - 1)%nat then add64 (kw i) c
  else kw i.
Lemma plus_3 a b k : plus 64 a (plus 64 b k) = plus 64 (plus 64 a k) b.
Proof. unfold plus. rewrite ?Zplus_mod_idemp_l, ?Zplus_mod_idemp_r. f_equal. lia. Qed.
Lemma plus_4 a b k t : plus 64 a (plus 64 (plus 64 b k) t) = plus 64 (plus 64 a (plus 64 k t)) b.
Proof.
  unfold plus. rewrite (Zplus_mod_idemp_l (b + k)), Zplus_mod_idemp_r, (Zplus_mod_idemp_r (k + t)), Zplus_mod_idemp_l. f_equal. lia.
Qed.
Definition first_ok (n : nat) (rs : list Z) : Prop := forall ki ti tj c c0 x t, length x = n -> (c0 = match c with Some c => c | None => 0 end) ->
  exec 64 (first n ki ti tj c rs) (x ++ t) =
  mix_words rs (add_words x (map (sword n (fun i => nth (ki i) t 0) (nth (S n + ti) t 0) (nth (S n + tj) t 0) c0) (seq 0 n))) ++ t.
Lemma plus_0 a k : plus 64 a (plus 64 k 0) = plus 64 a k.
Proof. unfold plus. rewrite Z.add_0_r, Zplus_mod_idemp_r. reflexivity. Qed.
Lemma cons_eq {A} (a b : A) l m : a = b -> l = m -> a :: l = b :: m.
Proof. now intros -> ->. Qed.
Opaque plus rotl Z.lxor.
Ltac pside := first [apply plus_3|apply plus_4|rewrite plus_0; pside|reflexivity].
Ltac first_tac :=
  intros rs H' ki ti tj c c0 x t H E; open_words x H; open_words rs H'; subst c0;
  destruct c; cbv [first injmix' inject' sumof sum sword exec fold_left exec1 upd fst snd map concat app combine seq length ev nth Nat.mul Nat.add Nat.sub Nat.eqb kr tr add_words mix_words add64];
  change (wadd 64) with (plus 64); change (wrotl 64) with (rotl 64);
  repeat (apply cons_eq; [first [pside|apply f_equal2; [apply f_equal2; [pside|reflexivity]|pside]]|]); reflexivity.
Lemma first4 : forall rs, length rs = 2%nat -> first_ok 4 rs. Proof. first_tac. Qed.
Lemma first8 : forall rs, length rs = 4%nat -> first_ok 8 rs. Proof. first_tac. Qed.
Lemma first16 : forall rs, length rs = 8%nat -> first_ok 16 rs. Proof. first_tac. Qed.
