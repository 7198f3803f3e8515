(** Model of the unrolled permutations of CEX/Threefish.h (used by TSX256, TSX512 and TSX1024) and CEX/Skein.h (used
    by Skein256, Skein512 and Skein1024): the generated statements run on zeroed local variables and the arguments.
    The arguments are std::array of fixed sizes; other lengths do not compile, here they are UB. *)
From Verif Require Import Base Model_Straight Model_ThreefishGen.
Open Scope Z_scope.

(** registers: n + (n + 1) + 3 locals, then the arguments *)
Definition TPermute (n : nat) (p : prog) (key ctr tw : list Z) : res (list Z) :=
  _ <- safe ((length key =? n) && (length ctr =? 2) && (length tw =? 2))%nat ;;
  Ok (skipn (3 * n + 8) (exec 64 p (zeros (2 * n + 4) ++ ctr ++ key ++ tw ++ zeros n))).
(** Threefish.h:281-650, :1011-1943, :2516-4787; the result is what is written to State *)
Definition PemuteR72P256U := TPermute 4 tsx256_U.
Definition PemuteR96P512U := TPermute 8 tsx512_U.
Definition PemuteR120P1024U := TPermute 16 tsx1024_U.
Definition KPermute (n : nat) (p : prog) (inp tw state : list Z) : res (list Z) :=
  _ <- safe ((length inp =? n) && (length tw =? 2) && (length state =? n))%nat ;;
  Ok (skipn (3 * n + 6) (exec 64 p (zeros (2 * n + 4) ++ inp ++ tw ++ state))).
(** Skein.h:154-523, :676-1389, :3225-4772: State is the key and receives the result *)
Definition Skein_PemuteR72P256U := KPermute 4 skein256_U.
Definition Skein_PemuteR72P512U := KPermute 8 skein512_U.
Definition Skein_PemuteR80P1024U := KPermute 16 skein1024_U.
