(** What the key generator should return: cSHAKE of a fresh seed, with the names of the three parties as customization. *)
From Coq Require Import String Ascii.
From Verif Require Import Base Spec_Keccak Model_AsymmetricSecureKey Model_SymKeyGen.
Open Scope Z_scope.

Definition text (s : string) : list Z := map (fun a => Z.of_N (N_of_ascii a)) (list_ascii_of_string s).
(** the providers answer every request with bytes of the size asked for *)
Definition machine_ok (M : machine) : Prop := forall t c n, exists x, mc_bytes M t c n = Ok x /\ bytes x /\ length x = n.
(** the provider that is really used *)
Definition used (M : machine) (t : providers) : providers :=
  match t with CJP => if mc_tsc M then CJP else ECP | RDP => if mc_rdrand M then RDP else ECP | t => t end.
Definition called (t : providers) : string :=
  match t with ACP => "ACP" | CJP => "CJP" | CSP => "CSP" | ECP => "ECP" | RDP => "RDP" | PNone => "None" end.
(** policy, size of the seed, rate, name of the function *)
Definition strength (p : policy) : nat * nat * string :=
  match p with SPL512 | SPL512AE => (64, 72, "SHAKE512"%string) | _ => (32, 136, "SHAKE256"%string) end%nat.
(** [x] is the output of [n] bytes that comes from the request number [c] to the provider *)
Definition output_of (M : machine) (g : keygen) (c n : nat) (x : list Z) : Prop :=
  let '(klen, rate, name) := strength (kg_pol g) in
  exists seed, mc_bytes M (used M (kg_prov g)) c klen = Ok seed /\
    x = cshake 24 rate seed n [] (text ("SymmetricKeyGenerator" ++ called (used M (kg_prov g)) ++ name)).
(** one SHAKE object gives at most 1024000 blocks *)
Definition not_too_long (g : keygen) (n : nat) : Prop := Z.of_nat n / Z.of_nat (snd (fst (strength (kg_pol g)))) <= 1024000.
