(** Concrete instances of the hypotheses of PropHash.v. *)
From Verif Require Import Base Blake2 HasherModel HasherSpec HasherProofs PropHash.

Example ex_C03_blocks : In (param_block (crh_params SIG_DOMAIN 64)) (direct_blocks SIG_DOMAIN 64) /\
  length (direct_blocks SIG_DOMAIN 64) = 3%nat /\ length (xof_blocks POP_DOMAIN 96) = 3%nat.
Proof. split; [left; reflexivity|]. split; reflexivity. Qed.
(** A 70-byte output has three blocks, the last one 6 bytes long. *)
Example ex_C22 : exists out, direct_xof SIG_DOMAIN [1; 2; 3] 70 = Ok out /\ length out = 70%nat /\
  hash_length (xof_params SIG_DOMAIN 2 70) = 6 /\ num_hashes 70 = 3.
Proof.
  destruct (C22_xof_output SIG_DOMAIN [1; 2; 3] 70) as (o & H & L & _); [cbn; lia|lia|].
  exists o. split; [exact H|]. split; [lia|]. split; reflexivity.
Qed.
Example ex_C22_large : direct_xof (SIG_DOMAIN ++ [0]) [1] 32 = Err (DomainTooLarge 9).
Proof. reflexivity. Qed.
(** The empty domain and a single zero byte are one domain; 48 and 65584 are one length. *)
Example ex_C23 : domain8 [] = domain8 [0] /\ 48 + 2 ^ 16 = 65584 /\ domain8 SIG_DOMAIN <> domain8 POP_DOMAIN.
Proof. split; [reflexivity|]. split; [reflexivity|discriminate]. Qed.
Example ex_C24 : (8 < length (SIG_DOMAIN ++ [0%Z]))%nat /\ hash direct_hasher (SIG_DOMAIN ++ [0]) [] 96 = Panic /\
  hash (composite_hasher (fun m => if Z.of_nat (length m) <=? 19530 then Ok (repeat 0 48) else Panic)) (SIG_DOMAIN ++ [0]) [] 96
    = Err (DomainTooLarge 9).
Proof. split; [cbn; lia|]. split; reflexivity. Qed.
