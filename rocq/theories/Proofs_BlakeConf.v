From Verif Require Import BaseLemmas Spec_Common Proofs_Common Model_IntegerTools Model_Modes Model_Blake Spec_ChaCha Spec_BlakeConf Proofs_Blake ProofsP_Blake.
Open Scope Z_scope.

Lemma wshl_small w x n k : 0 <= n -> 0 <= k -> n + k <= w -> 0 <= x < 2 ^ k -> wshl w x n = Z.shiftl x n.
Proof.
  intros Hn Hk Hw Hx. unfold wshl. rewrite Z.shiftl_mul_pow2 by lia. apply Z.mod_small. split; [nia|].
  apply Z.lt_le_trans with (2 ^ (n + k)); [rewrite Z.pow_add_r by lia; nia|]. apply Z.pow_le_mono_r; lia.
Qed.
Lemma lor4 w a b c d : 32 <= w -> is_byte a -> is_byte b -> is_byte c -> is_byte d ->
  Z.lor (Z.lor (Z.lor a (wshl w b 8)) (wshl w c 16)) (wshl w d 24) = le_val [a; b; c; d].
Proof.
  unfold is_byte. intros Hw A B C D. rewrite !(wshl_small w _ _ 8) by lia.
  rewrite (lor_shiftl_add a b 8) by lia. rewrite (lor_shiftl_add _ c 16) by lia. rewrite (lor_shiftl_add _ d 24) by lia. cbn [le_val]. lia.
Qed.
Lemma leaf4 x : 0 <= x < 2 ^ 32 -> le_val (le_bytes 4 x) = x.
Proof. intros H. rewrite le_val_le_bytes. apply Z.mod_small. change (256 ^ Z.of_nat 4) with (2 ^ 32). lia. Qed.
Lemma le_val_app4 a l : length a = 4%nat -> le_val (a ++ l) = le_val a + 2 ^ 32 * le_val l.
Proof. intros H. do 4 (destruct a as [|? a]; [discriminate|]). destruct a; [|discriminate]. cbn [app le_val]. lia. Qed.
Lemma words_cons n a l : (0 < n)%nat -> length a = n -> le_words n (a ++ l) = le_val a :: le_words n l.
Proof. intros. unfold le_words. rewrite chunks_app by auto. reflexivity. Qed.
Lemma c36_config256 p cfg : params_ok 12 p -> length cfg = 8%nat -> nth 3 cfg 0 = 0 -> GetConfig32 p cfg = Ok (le_words 4 (block256 p)).
Proof.
  destruct p as [ou ke fa de le no nd inn rs dst]. unfold params_ok, block256, GetConfig32. cbn [p_out p_key p_fan p_depth p_leaf p_noff p_ndepth p_inner p_res p_dst]. intros (F & HL & HD) HC H3.
  repeat match goal with H : Forall _ (_ :: _) |- _ => inversion H; clear H; subst end. split8 cfg HC. cbn [nth] in H3. subst.
  rewrite lor4 by (auto; lia).
  assert (E3 : Z.lor (Z.lor 0 (wshl 32 nd 16)) (wshl 32 inn 24) = le_val [0; 0; nd; inn]).
  { rewrite <- (lor4 32 0 0 nd inn) by (auto; unfold is_byte; lia). reflexivity. }
  replace ([ou; ke; fa; de] ++ le_bytes 4 le ++ [no; 0; 0; 0; 0; 0] ++ [nd; inn] ++ [rs; 0; 0; 0] ++ dst)
    with ([ou; ke; fa; de] ++ le_bytes 4 le ++ [no; 0; 0; 0] ++ [0; 0; nd; inn] ++ [rs; 0; 0; 0] ++ dst) by reflexivity.
  rewrite !(words_cons 4) by (auto; lia). rewrite leaf4 by auto. rewrite <- E3.
  replace (le_val [no; 0; 0; 0]) with no by (cbn [le_val]; lia). replace (le_val [rs; 0; 0; 0]) with rs by (cbn [le_val]; lia).
  generalize (le_val [ou; ke; fa; de]). intros w0. split12 dst HD. reflexivity.
Qed.
Ltac split40 s H := do 40 (destruct s as [|? s]; [discriminate H|]); destruct s; [|discriminate H].
Lemma c36_config512 p cfg : params_ok 40 p -> length cfg = 8%nat -> GetConfig64 p cfg = Ok (le_words 8 (block512 p)).
Proof.
  destruct p as [ou ke fa de le no nd inn rs dst]. unfold params_ok, block512, GetConfig64. cbn [p_out p_key p_fan p_depth p_leaf p_noff p_ndepth p_inner p_res p_dst]. intros (F & HL & HD) HC.
  repeat match goal with H : Forall _ (_ :: _) |- _ => inversion H; clear H; subst end. split8 cfg HC.
  rewrite lor4 by (auto; lia). unfold is_byte in *.
  assert (E0 : Z.lor (le_val [ou; ke; fa; de]) (wshl 64 le 32) = le_val ([ou; ke; fa; de] ++ le_bytes 4 le)).
  { rewrite (wshl_small 64 _ _ 32) by lia. rewrite lor_shiftl_add by (cbn [le_val]; lia). rewrite le_val_app4 by reflexivity. rewrite leaf4 by lia. reflexivity. }
  assert (E2 : Z.lor (Z.lor nd (wshl 64 inn 8)) (wshl 64 rs 16) = le_val [nd; inn; rs; 0; 0; 0; 0; 0]).
  { rewrite !(wshl_small 64 _ _ 8) by lia. rewrite (lor_shiftl_add nd inn 8) by lia. rewrite (lor_shiftl_add _ rs 16) by lia. cbn [le_val]. lia. }
  replace ([ou; ke; fa; de] ++ le_bytes 4 le ++ [no; 0; 0; 0; 0; 0; 0; 0] ++ [nd; inn] ++ [rs; 0; 0; 0; 0; 0] ++ dst)
    with (([ou; ke; fa; de] ++ le_bytes 4 le) ++ [no; 0; 0; 0; 0; 0; 0; 0] ++ [nd; inn; rs; 0; 0; 0; 0; 0] ++ dst) by reflexivity.
  rewrite !(words_cons 8) by (auto; lia). rewrite E0, <- E2. replace (le_val [no; 0; 0; 0; 0; 0; 0; 0]) with no by (cbn [le_val]; lia).
  generalize (le_val ([ou; ke; fa; de] ++ le_bytes 4 le)). intros w0. generalize (Z.lor (Z.lor nd (wshl 64 inn 8)) (wshl 64 rs 16)). intros w2. split40 dst HD. reflexivity.
Qed.
