(** Concrete cases meeting the hypotheses of C37-C40 and C56. *)
From Coq Require Import Field.
From Verif Require Import Base Constants Group Instances Field Curve BlsModel BlsSpec BitsModel BitsProofs EncodingModel EncodingSpec Blake2 HasherModel PointModel HashCurveModel
  HashCurveSpec HashCurveProofs CodecSpec Circuit CircuitFacts GadgetModel GadgetSpec GadgetProofs HashGadgetModel HashGadgetSpec HashGadgetProofs HashGadgetNative
  PropHashGadget HashCurveExamples CodecExamples.
Add Field Fqf : fq_field.

(** A group standing for the points of the curve, compatible with negation: +1, 0 or -1 in Z/r. *)
Definition sign_point (P : apoint fq) : zr_grp :=
  match P with None => gz | Some (_, y) => if qeqb y q0 then gz else if half <? fqv y then zr_gen 1 else gn (zr_gen 1) end.
Lemma sign_point_zero : sign_point None = gz. Proof. reflexivity. Qed.
Lemma half_opp y : y <> q0 -> (half <? fqv (qopp y)) = negb (half <? fqv y).
Proof.
  intros N. assert (T : forall t, (half <? fqv t) = true <-> larger1 t) by (intros t; rewrite larger1_half; apply Z.ltb_lt).
  assert (E : fqv (qopp y) <> fqv y).
  { intros E. apply fq_ext in E. apply N. destruct (fq_integral (qadd q1 q1) y) as [H|H]; [| |exact H].
    - transitivity (qadd y y); [ring|]. rewrite <- E at 1. ring.
    - exfalso. apply (f_equal fqv) in H. vm_compute in H. discriminate. }
  apply eq_iff_eq_true. rewrite negb_true_iff, <- not_true_iff_false, !T. unfold larger1. rewrite q_opp_opp. lia.
Qed.
Lemma sign_point_neg : negation_law sign_point.
Proof.
  intros [[x y]|]; cbn [g1_neg ec_neg sign_point]; [|symmetry; apply gn_0].
  destruct (qeqb y q0) eqn:E.
  - apply qeqb_spec in E. subst y. assert (qeqb (qopp q0) q0 = true) as -> by (vm_compute; reflexivity). symmetry. apply gn_0.
  - assert (N : y <> q0) by (intros ->; vm_compute in E; discriminate).
    assert (qeqb (qopp y) q0 = false) as ->.
    { destruct (qeqb (qopp y) q0) eqn:E'; [|reflexivity]. apply qeqb_spec in E'. exfalso. apply N. rewrite <- (q_opp_opp y), E'. apply fq_ext. vm_compute. reflexivity. }
    rewrite (half_opp y N). destruct (half <? fqv y); cbn [negb]; [reflexivity|]. symmetry. apply gn_gn.
Qed.
Definition ped_one : bytes -> option fq := fun _ => Some q1.
Definition extra8 : list (list bool) := [byte_bits 8 8].
Definition hash_msg : list (list bool) := [byte_bits 8 1; byte_bits 8 2; byte_bits 8 3].
Definition ctr (c : Z) : list bool := byte_bits 8 c.
Definition digest2 : bytes := [184; 122; 149; 66; 20; 73; 60; 78; 31; 5; 62; 197; 93; 106; 136; 136; 16; 38; 58; 251; 64; 137; 155; 89; 188; 204; 51; 213; 232; 6; 219; 144; 219; 93; 58; 115; 191; 115; 89; 59; 80; 187; 173; 219; 212; 234; 172; 220; 20; 163; 34; 98; 193; 40; 90; 149; 61; 166; 116; 81; 80; 75; 224; 222].
Definition point2 : fq * fq := (fq_of 103962538728278103207761273197662563730586564776386915032888513701906819922088137838079249017598628157258321984184, fq_of 125961219073816287809199396908177958030530967222141792212467833677934262925847826119388891554958598880829757371669).
Lemma xof2 : xof_bytes SIG_DOMAIN ([2; 8] ++ le_bytes 48 1) = digest2. Proof. vm_compute. reflexivity. Qed.
Lemma selected2 : selected 377 (number digest2) point2.
Proof.
  split; [apply qeqb_spec; vm_compute; reflexivity|]. split; [vm_compute; reflexivity|]. unfold larger1.
  split; intros H; vm_compute in H |- *; first [reflexivity | discriminate H].
Qed.
Definition digest4 : bytes := [246; 245; 25; 2; 53; 245; 206; 10; 34; 223; 35; 150; 57; 171; 189; 10; 62; 191; 246; 231; 184; 76; 243; 49; 139; 252; 195; 66; 165; 13; 110; 129; 154; 15; 200; 78; 61; 146; 150; 244; 185; 47; 119; 68; 110; 112; 62; 32; 152; 138; 221; 132; 237; 232; 159; 112; 97; 48; 202; 111; 4; 222; 64; 114].
Definition point4 : fq * fq := (fq_of 37540116235974464349836960679637502434333454105421009066703440645981274138289442532259568727361462027936337622518, fq_of 31587233910464264370971734092216289806292828701403088706293061303500633523370823260954763811933015143165159079692).
Lemma xof4 : xof_bytes SIG_DOMAIN ([4; 8] ++ le_bytes 48 1) = digest4. Proof. vm_compute. reflexivity. Qed.
Lemma selected4 : selected 377 (number digest4) point4.
Proof.
  split; [apply qeqb_spec; vm_compute; reflexivity|]. split; [vm_compute; reflexivity|]. unfold larger1.
  split; intros H; vm_compute in H |- *; first [reflexivity | discriminate H].
Qed.

Lemma ctr_ok c : u8_var (ctr c). Proof. apply byte_bits_length. Qed.
Lemma extra_ok : Forall u8_var extra8. Proof. repeat constructor. Qed.
(** The same message hashed with counters 2 and 4: both satisfy the constraints, with different points. *)
Lemma at_counter {E1 : grp} (of1 : apoint fq -> E1) sqrt c digest Q : 0 <= c < 256 ->
  xof_bytes SIG_DOMAIN ([c; 8] ++ le_bytes 48 1) = digest -> selected 377 (number digest) Q ->
  exists crh_bits xof_bits,
    holds (enforce_hash_to_group of1 sqrt ped_one true true (ctr c) hash_msg extra8 true) (smul G1_COFACTOR (of1 (Some Q)), crh_bits, xof_bits).
Proof.
  intros R X H. exists (bits_of_bytes (le_bytes 48 1)), (bits_of_bytes digest).
  apply C38_sound; [apply ctr_ok|exact extra_ok|]. exists (le_bytes 48 1), digest.
  assert (V : bits_number_le (ctr c) = c). { change (bits_number_le (ctr c)) with (bits_le_val (ctr c)). unfold ctr. rewrite byte_bits_val. apply Z.mod_small. exact R. }
  split; [reflexivity|]. split; [apply bits_are_iff; reflexivity|]. rewrite V. split; [|split; [apply bits_are_iff; reflexivity|left; exists Q; auto]].
  cbn [xof composite_hasher]. rewrite <- X. exact (xof_bytes_ok SIG_DOMAIN ([c; 8] ++ le_bytes 48 1) (Nat.le_refl 8)).
Qed.
Theorem C38_least_counter_refuted : forall (E1 : grp) (of1 : apoint fq -> E1) sqrt,
  point2 <> point4 /\
  (exists crh_bits xof_bits, holds (enforce_hash_to_group of1 sqrt ped_one true true (ctr 2) hash_msg extra8 true) (smul G1_COFACTOR (of1 (Some point2)), crh_bits, xof_bits)) /\
  (exists crh_bits xof_bits, holds (enforce_hash_to_group of1 sqrt ped_one true true (ctr 4) hash_msg extra8 true) (smul G1_COFACTOR (of1 (Some point4)), crh_bits, xof_bits)).
Proof.
  intros E1 of1 sqrt. split; [intros H; apply (f_equal (fun q => fqv (fst q))) in H; vm_compute in H; discriminate|].
  split; [apply (at_counter of1 sqrt 2 _ _ ltac:(lia) xof2 selected2)|apply (at_counter of1 sqrt 4 _ _ ltac:(lia) xof4 selected4)].
Qed.
(** The hypotheses of C38_any_counter and C37_native_in_gadget are met by counter 4, respectively 2. *)
Lemma sign2_nz : smul G1_COFACTOR (sign_point (Some point2)) <> gz.
Proof.
  intros H. apply (f_equal zr_val) in H. rewrite zr_smul in H. revert H.
  match goal with |- ?a = ?b -> _ => assert (X : (a =? b) = false) by (vm_compute; reflexivity); apply Z.eqb_neq in X; exact X end.
Qed.
Example gives2 : gives (denotes_g1 (g1_sign_bit true)) sign_point G1_COFACTOR 48 digest2 (smul G1_COFACTOR (sign_point (Some point2))).
Proof.
  exists (Some point2). split; [|split; [reflexivity|exact sign2_nz]].
  pose proof selected2 as (H & Hx & Hs). unfold point2 in *. cbn [fst snd] in *. unfold denotes_g1. cbv zeta.
  split; [vm_compute; reflexivity|]. split; [intros [X _]; vm_compute in X; discriminate|]. split; [vm_compute; reflexivity|]. split; [exact H|].
  match goal with |- context [Z.testbit ?v ?i] => destruct (Z.testbit v i) eqn:B end; vm_compute in B; try discriminate B; unfold le1; vm_compute; discriminate.
Qed.
(** C40: nine bits in chunks of eight *)
Example pack_example : holds (multipack [true; false; true; true; false; false; false; true; true] 8) [fq_of 177; fq_of 1] /\
  holds (multipack [true; false; true; true; false; false; false; true; true] 8) [fq_of (177 + 256); fq_of 5] /\
  pack p 8 [true; false; true; true; false; false; false; true; true] = Some [177; 1].
Proof. split; [|split; [|vm_compute; reflexivity]]; (apply C40_low_bits; [lia|]); repeat constructor. Qed.
(** C56: the digest above, opened to (2, 3), which is not the point it selects *)
Example two_three : g1_equation (fq_of 2, fq_of 3). Proof. apply qeqb_spec. vm_compute. reflexivity. Qed.
Example digest_opens_elsewhere : forall (E1 : grp) (of1 : apoint fq -> E1) sqrt,
  exists y, (y = fq_of 3 \/ y = qopp (fq_of 3)) /\
    holds (HashGadgetModel.hash_to_group of1 sqrt true false (bits_of_bytes digest2)) (smul G1_COFACTOR (of1 (Some (fq_of 2, y)))).
Proof.
  intros E1 of1 sqrt. apply (C56_hash_any_point E1 of1 sqrt true (bits_of_bytes digest2) (fq_of 2, fq_of 3)).
  - rewrite bits_of_bytes_length. reflexivity.
  - vm_compute. split; reflexivity.
  - exact two_three.
  - intros X. apply (f_equal fqv) in X. vm_compute in X. discriminate.
  - intros X. apply (f_equal fqv) in X. vm_compute in X. discriminate.
Qed.

Print Assumptions C38_least_counter_refuted.
