(** C36 the parameter block *)
From Verif Require Import BaseLemmas Model_Blake Spec_ChaCha Spec_BlakeConf Proofs_BlakeConf.
Open Scope Z_scope.

(** C36: GetConfig fills a cleared array of eight words with the BLAKE2 parameter block, every field in its place, for every value of the fields *)
Theorem C36_config256 : forall (p : bparams) (cfg : list Z), params_ok 12 p -> length cfg = 8%nat -> nth 3 cfg 0 = 0 -> GetConfig32 p cfg = Ok (le_words 4 (block256 p)).
Proof. exact c36_config256. Qed.
Print Assumptions C36_config256.
Theorem C36_config512 : forall (p : bparams) (cfg : list Z), params_ok 40 p -> length cfg = 8%nat -> GetConfig64 p cfg = Ok (le_words 8 (block512 p)).
Proof. exact c36_config512. Qed.
Print Assumptions C36_config512.
Example C36_config_case : params_ok 12 (BParams 32 16 8 2 4096 3 1 32 0 [0; 1; 2; 3; 4; 5; 6; 7; 8; 9; 10; 11]) /\
  GetConfig32 (BParams 32 16 8 2 4096 3 1 32 0 [0; 1; 2; 3; 4; 5; 6; 7; 8; 9; 10; 11]) (zeros 8) = Ok [0x02081020; 4096; 3; 0x20010000; 0; 0x03020100; 0x07060504; 0x0B0A0908].
Proof. split; [repeat split; repeat constructor; unfold is_byte; cbn; lia|]. vm_compute. reflexivity. Qed.
