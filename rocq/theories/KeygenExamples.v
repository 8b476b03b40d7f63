(** C73 on concrete draws. *)
From Verif Require Import Base Constants Group Field Curve BlsModel PointModel EncodingModel HasherModel HashCurveModel HashCurveSpec HashCurveProofs CodecModel FfiModel CurveGroups OrderSpec TwistSpec CurvesExamples RealSpec RealModel PropReal RealExamples KeygenModel KeygenSpec KeygenProofs PropKeygen.

(** Rejected at first (all bits set), then accepted: the limbs of 2^256 modulo r stand for 1; the masked bits do not matter. *)
Definition full : list Z := [2 ^ 64 - 1; 2 ^ 64 - 1; 2 ^ 64 - 1; 2 ^ 64 - 1].
Definition one : list Z := [(2 ^ 256 mod r) mod 2 ^ 64; (2 ^ 256 mod r / 2 ^ 64) mod 2 ^ 64; (2 ^ 256 mod r / 2 ^ 128) mod 2 ^ 64; (2 ^ 256 mod r / 2 ^ 192) mod 2 ^ 64 + 2 ^ 63].
Example full_draw : draw full. Proof. split; [reflexivity|]. repeat (constructor; [split; [intros K; discriminate K|reflexivity]|]). constructor. Qed.
Example one_draw : draw one. Proof. split; [reflexivity|]. repeat (constructor; [vm_compute; split; [intros K; discriminate K|reflexivity]|]). constructor. Qed.
Example rejected : generate [full] = None. Proof. vm_compute. reflexivity. Qed.
Example accepted : generate [full; one; full] = Some 1. Proof. vm_compute. reflexivity. Qed.
Example accepted_bytes : c_generate [full; one; full] = Some (1 :: repeat 0 31). Proof. vm_compute. reflexivity. Qed.
(** The strings counted exist. *)
Example strings n k : exists L, lists_all (fun d => draws n d /\ generate d = Some k) L. Proof. eexists. apply key_list. Qed.
Example running n : exists L, lists_all (fun d => draws n d /\ generate d = None) L. Proof. eexists. apply running_list. Qed.
Example once k : 0 <= k < r -> exists L, lists_all (fun d => draws 1 d /\ generate d = Some k) L /\ length L = 8%nat.
Proof.
  intros Hk. destruct (strings 1 k) as [L HL]. exists L. split; [exact HL|]. pose proof (C73_uniform 1 k L Hk HL) as E. change (Z.of_nat 1) with 1 in E. rewrite !Z.pow_1_r in E.
  assert (G : forall a x, 0 < x -> Z.of_nat (length L) * x = a - (a - 8 * x) -> length L = 8%nat) by (intros a x Hx EE; nia). exact (G (2 ^ 256) r eq_refl E).
Qed.
Example signs : exists m x pk sig, c_public_key g1_curve e70 e70_bilinear (1 :: repeat 0 31) = Some pk /\ c_sign g1_curve e70 e70_bilinear true ped70 fq_sqrt (1 :: repeat 0 31) m x true true = Some sig /\ verify70 pk sig m x true true = Some true.
Proof.
  destruct hashed70 as (m & x & H). destruct (C73_usable _ _ e70_bilinear true ped70 fq_sqrt fq2_sqrt ped70_bytes fq_sqrt_ok fq2_sqrt_ok _ _ accepted_bytes) as (pk & P & U).
  destruct (U m x true true _ H) as (sig & S & V). exists m, x, pk, sig. split; [exact P|]. split; [exact S|exact V].
Qed.
