(** Non-vacuity: concrete instances of the hypotheses of PropBls.v over the pairing Z/r x Z/r -> Z/r
    with the real 253-bit modulus, and the witnesses of the negative claims. *)
From Verif Require Import Base Constants Group Instances BlsModel BlsSpec BlsProofs BatchProofs.
Open Scope Z_scope.

(** A toy oracle: a non-zero multiple of the generator depending on all inputs; messages starting with
    255 fail to hash. *)
Definition toy : hasher zr_pairing := fun d m x =>
  match m with 255 :: _ => Err HashToCurveError | _ => Ok (zr_mk (1 + le_val (d ++ x ++ m))) end.

Example ex_C01 : exists sig, outcome (sign toy 7 [1;2] [3]) = Ok sig /\ sig <> gz /\
  outcome (verify toy (to_public 7) [1;2] [3] sig) = Ok tt /\
  outcome (sign toy 7 [255] [3]) = Err HashToCurveError /\
  outcome (sign_pop toy 7 [1]) <> Err HashToCurveError.
Proof.
  eexists. split; [reflexivity|]. split; [|split; [vm_compute; reflexivity|split; [reflexivity|discriminate]]].
  intros E. apply (f_equal zr_val) in E. vm_compute in E. discriminate.
Qed.

Example ex_C02 : toy SIG_DOMAIN [1] [] = Ok (zr_mk (1 + le_val (SIG_DOMAIN ++ [1]))) /\
  outcome (verify toy (to_public 5) [1] [] (zr_mk 3)) = Err VerificationFailed /\
  outcome (verify toy (to_public 5) [1] [] (smul 5 (zr_mk (1 + le_val (SIG_DOMAIN ++ [1])) : G1 zr_pairing))) = Ok tt.
Proof. split; [reflexivity|]. vm_compute. repeat split. Qed.

(** The cross-domain equivalence is not vacuous on either side: the toy oracle separates, a constant
    oracle collides. *)
Example ex_C03 : ~ (r | 7) /\
  outcome (verify_pop toy (to_public 7) [1] (smul 7 (zr_mk (1 + le_val (SIG_DOMAIN ++ [1])) : G1 zr_pairing))) = Err VerificationFailed /\
  outcome (verify_pop (fun _ _ _ => Ok (zr_mk 4 : G1 zr_pairing)) (to_public 7) [1] (smul 7 (zr_mk 4 : G1 zr_pairing))) = Ok tt.
Proof.
  split; [|vm_compute; repeat split]. intros [z Hz].
  assert (z = 0 \/ z <= -1 \/ 1 <= z) by lia. assert (7 < r) by reflexivity. nia.
Qed.

Example ex_C04 : exists sigs,
  mapM (fun sk => outcome (sign toy sk [1] [2])) [3; 5; 3] = Ok sigs /\ length sigs = 3%nat /\
  is_ok (toy SIG_DOMAIN [1] [2]) = true.
Proof. eexists. repeat split. Qed.

Example ex_C05 : let H1 := zr_mk (1 + le_val (SIG_DOMAIN ++ [1])) : G1 zr_pairing in
  let H2 := zr_mk (1 + le_val (SIG_DOMAIN ++ [2])) : G1 zr_pairing in
  outcome (batch_verify toy (ga (smul 3 H1) (smul 5 H2)) [to_public 3; to_public 5] SIG_DOMAIN [([1], []); ([2], [])]) = Ok tt /\
  outcome (batch_verify toy (ga (smul 5 H1) (smul 3 H2)) [to_public 3; to_public 5] SIG_DOMAIN [([1], []); ([2], [])]) = Err VerificationFailed /\
  batch_verify toy gz [to_public 3; to_public 5] SIG_DOMAIN [([1], []); ([255], [])] =
    ([(SIG_DOMAIN, [1], []); (SIG_DOMAIN, [255], [])], Err HashToCurveError) /\
  batch_verify toy gz [to_public 3] SIG_DOMAIN [([255], []); ([255], [])] = ([], Err UnevenNumKeysMessages).
Proof. vm_compute. repeat split. Qed.

(** C06, negative half: two invalid components whose aggregate is accepted. *)
Theorem C06_errors_cancel_refuted :
  exists (H1 H2 : G1 zr_pairing) (pk1 pk2 : G2 zr_pairing) s1 s2,
    ~ signature_on H1 pk1 s1 /\ ~ signature_on H2 pk2 s2 /\
    outcome (batch_verify_hashes (aggregate_sig [s1; s2]) [pk1; pk2] [H1; H2]) = Ok tt.
Proof.
  exists (zr_mk 2), (zr_mk 3), (zr_mk 5), (zr_mk 7), (zr_mk 11), (zr_mk 20).
  split; [|split]; [| |vm_compute; reflexivity].
  - intros S. apply pairing_two_iff in S. vm_compute in S. discriminate.
  - intros S. apply pairing_two_iff in S. vm_compute in S. discriminate.
Qed.
Print Assumptions C06_errors_cancel_refuted.

Example ex_C06 : let H1 := zr_mk 2 : G1 zr_pairing in let H2 := zr_mk 3 : G1 zr_pairing in
  signatures_on [H1] [to_public 5] [smul 5 H1] /\
  outcome (batch_verify_hashes (aggregate_sig ([smul 5 H1] ++ zr_mk 21 :: [])) ([to_public 5] ++ to_public 7 :: []) ([H1] ++ H2 :: [])) = Ok tt.
Proof.
  cbn zeta. split; [|vm_compute; reflexivity]. repeat constructor. exists 5. split; reflexivity.
Qed.

Example ex_C07 : batch_points [2; 3] [zr_mk 5 : zr_grp; zr_mk 7] = Some (zr_mk 31 : zr_grp) /\
  batch_points [2] [zr_mk 5 : zr_grp; zr_mk 7] = None.
Proof. split; [|reflexivity]. unfold batch_points; cbn [length Nat.eqb negb]. f_equal. Qed.

(** A batch with two valid entries and a 17-byte draw per entry. *)
Definition toyH : G1 zr_pairing := zr_mk (1 + le_val (SIG_DOMAIN ++ [9] ++ [1])).
Definition toy_batch (s2 : G1 zr_pairing) : batch zr_pairing :=
  batch_add (batch_add (batch_new [1] [9]) (to_public 3) (smul 3 toyH)) (to_public 4) s2.
Definition toy_draw (a b : Z) : list bytes := [a :: repeat 200 16; b :: repeat 100 16].

Lemma toy_draw_ok a b s : 0 <= a < 256 -> 0 <= b < 256 -> draw_for (toy_batch s) (toy_draw a b).
Proof.
  intros Ha Hb. split; [reflexivity|].
  repeat apply Forall_cons; try apply Forall_nil; split; try reflexivity; apply is_bytes_cons; split; try assumption; reflexivity.
Qed.

Example ex_C08 : draw_for (toy_batch (smul 4 toyH)) (toy_draw 255 1) /\
  Forall (entry_valid toy (toy_batch (smul 4 toyH))) (entries (toy_batch (smul 4 toyH))) /\
  outcome (batch_verify_random toy (toy_batch (smul 4 toyH)) (toy_draw 255 1)) = Ok tt.
Proof.
  split; [apply toy_draw_ok; lia|]. split; [|vm_compute; reflexivity].
  repeat constructor; exists toyH; (split; [reflexivity|]); eexists; split; reflexivity.
Qed.

(** C09: an invalid entry; this draw rejects. *)
Example ex_C09 : let b := toy_batch (smul 5 toyH) in
  ~ entry_valid toy b (to_public 4, smul 5 toyH) /\
  entries b = [(to_public 3, smul 3 toyH)] ++ (to_public 4, smul 5 toyH) :: [] /\
  outcome (batch_verify_random toy b (toy_draw 255 1)) = Err VerificationFailed.
Proof.
  cbn zeta. split; [|split; [reflexivity|vm_compute; reflexivity]].
  intros V. apply verify_sig_iff in V. vm_compute in V. discriminate.
Qed.

(** C09: the one accepting draw does exist (all-zero exponents on a single-entry batch), so the bound
    is attained and the hypotheses of the uniqueness theorem can be met. *)
Example ex_C09_attained : let b := batch_add (batch_new [1] [9]) (to_public 4) (smul 5 toyH) in
  ~ entry_valid toy b (to_public 4, smul 5 toyH) /\ draw_for b [repeat 0 16] /\
  outcome (batch_verify_random toy b [repeat 0 16]) = Ok tt.
Proof.
  cbn zeta. split; [|split; [|vm_compute; reflexivity]].
  - intros V. apply verify_sig_iff in V. vm_compute in V. discriminate.
  - split; [reflexivity|]. repeat constructor.
Qed.

Example ex_C10 : exp_size (toy_batch gz) = 17 /\ byte_count_from_target_batch_size usize_max SECURITY_BOUND = 24 /\
  byte_count_from_target_batch_size 0 SECURITY_BOUND = 16.
Proof. vm_compute. repeat split. Qed.

Example ex_C11 : outcome (verify_each toy (toy_batch (smul 4 toyH))) = Ok tt /\
  outcome (verify_each toy (toy_batch (smul 5 toyH))) = Err VerificationFailed.
Proof. vm_compute. repeat split. Qed.
