(** Concrete cases meeting the hypotheses of C37, C39, C41-C48 and C56: a group of five elements standing for the
    points, multiplication as the pairing, a constant Pedersen hash, real BLAKE2 digests. *)
From Coq Require Import Field.
From Verif Require Import Base Constants Group Field Curve BlsModel BitsModel BitsProofs EncodingModel EncodingSpec EncodingProofs Blake2 HasherModel HasherSpec PointModel HashCurveModel HashCurveSpec HashCurveProofs CodecSpec
  Circuit CircuitFacts GadgetModel GadgetSpec HashGadgetModel HashGadgetSpec HashGadgetProofs HashGadgetNative EpochCircuitModel EpochSpec EpochCircuitSpec EpochProofs EpochCircuitProofs EpochChainProofs
  ProverModel ProverSpec ProverProofs EpochHonest EpochBinding PropHashCurve PropEpoch PropProver HashGadgetExamples.

Inductive z5 := n0 | n1 | n2 | n3 | n4.
Definition v5 (a : z5) : Z := match a with n0 => 0 | n1 => 1 | n2 => 2 | n3 => 3 | n4 => 4 end.
Definition of_Z (v : Z) : z5 := match v mod 5 with 0 => n0 | 1 => n1 | 2 => n2 | 3 => n3 | _ => n4 end.
Definition z5_grp : grp.
Proof.
  refine (Grp z5 n0 (fun a b => of_Z (v5 a + v5 b)) (fun a => of_Z (- v5 a)) (fun a b => v5 a =? v5 b) _ _ _ _ _).
  - intros [] [] []; reflexivity.
  - intros [] []; reflexivity.
  - intros []; reflexivity.
  - intros []; reflexivity.
  - intros [] []; split; intros H; first [reflexivity | discriminate H].
Defined.
Definition e5 (a b : z5_grp) : z5_grp := of_Z (v5 a * v5 b).
Example e5_bilinear : bilinear e5.
Proof. split; intros [] [] []; reflexivity. Qed.
Lemma bilinear_linear_at {E1 E2 GT : grp} (e : E1 -> E2 -> GT) (Q : E2) : bilinear e -> linear_at e Q.
Proof.
  intros [L R]. split; [intros; apply L|]. intros P. assert (Z : e P gz = gz).
  { pose proof (R P gz gz) as X. rewrite ga_0_l in X. apply (f_equal (ga (gn (e P gz)))) in X. rewrite gn_l, ga_assoc, gn_l, ga_0_l in X. symmetry. exact X. }
  apply (ga_cancel_l (e P Q)). rewrite <- R, (ga_comm E2 Q), gn_l, Z. symmetry. rewrite ga_comm. apply gn_l.
Qed.
Definition e5_linear (Q : z5_grp) : linear_at e5 Q := bilinear_linear_at e5 Q e5_bilinear.

(** Points of the curve: the sign of the ordinate, doubled for abscissa 0. *)
Definition of1 (P : apoint fq) : z5_grp :=
  match P with
  | None => n0
  | Some (x, y) => if qeqb y q0 then n0 else
      if qeqb x q0 then (if half <? fqv y then n2 else n3) else (if half <? fqv y then n1 else n4)
  end.
Definition to1 (a : z5_grp) : apoint fq :=
  match a with n0 => None | n1 => Some (fq_of 2, fq_of (-3)) | n4 => Some (fq_of 2, fq_of 3) | n2 => Some (q0, fq_of (-1)) | n3 => Some (q0, q1) end.
Lemma of1_neg : negation_law of1.
Proof.
  intros [[x y]|]; cbn [g1_neg ec_neg of1]; [|reflexivity]. destruct (qeqb y q0) eqn:E.
  - apply qeqb_spec in E. subst y. assert (qeqb (qopp q0) q0 = true) as -> by (vm_compute; reflexivity). reflexivity.
  - assert (N : y <> q0) by (intros ->; vm_compute in E; discriminate E).
    assert (qeqb (qopp y) q0 = false) as ->.
    { destruct (qeqb (qopp y) q0) eqn:E'; [|reflexivity]. apply qeqb_spec in E'. exfalso. apply N. rewrite <- (q_opp_opp y), E'. apply fq_ext. vm_compute. reflexivity. }
    rewrite (half_opp y N). destruct (qeqb x q0), (half <? fqv y); reflexivity.
Qed.
Lemma signatures_good s : good_signature of1 to1 s.
Proof. destruct s; split; vm_compute; reflexivity. Qed.

(** Points of the twist: the generator, its double and their negatives. *)
Definition twice : g2_point := Some
  (q2_of (219564603530812897662626723532119871126025986455221517258692924146720701350966061579326121792267180830577562566009,
          184624156959816253153212691059252753251414060022257016743873452235807427608305571427957272308982089732460045225308),
   q2_of (183390023131802300769587703273946623618493162536337034672377497825442095098047279060444611635423015435359400970794,
          137006181065015237533186569405795438258126659550846636415327489699198493880440637650517929480195536789466736841218)).
Definition to2 (a : z5_grp) : apoint fq2 :=
  match a with n0 => None | n1 => g2_generator | n2 => twice | n3 => g2_neg twice | n4 => g2_neg g2_generator end.
Definition peqb (P Q : apoint fq2) : bool :=
  match P, Q with Some (x, y), Some (x', y') => q2eqb x x' && q2eqb y y' | None, None => true | _, _ => false end.
Definition of2 (P : apoint fq2) : z5_grp :=
  if peqb P (to2 n1) then n1 else if peqb P (to2 n2) then n2 else if peqb P (to2 n3) then n3 else if peqb P (to2 n4) then n4 else n0.
Lemma keys_good K : good_key of2 to2 K.
Proof. destruct K; split; vm_compute; reflexivity. Qed.
Notation gen := (n1 : z5_grp).

(** Three validators, epochs 5, 6 and 7. *)
Definition ent (k : Z) : option bytes := Some (repeat k 16).
Definition b5 (mx : Z) (keys : list z5_grp) : epoch_block z5_grp := mk_block 5 0 (ent 9) (ent 8) mx 3 keys.
Definition b6 (parent : Z) : epoch_block z5_grp := mk_block 6 0 (ent 10) (ent parent) 1 3 [n4; n2; n2].
Definition b7 : epoch_block z5_grp := mk_block 7 0 (ent 11) (ent 10) 1 3 [n4; n3; n2].
Notation good := (good_block of2 to2 3).
Ltac good_solve :=
  split; [unfold wf_numbers; cbn; lia|]; split; [vm_compute; auto|]; split; [vm_compute; auto|]; split; [reflexivity|]; split; [cbn; lia|];
  repeat (constructor; [apply keys_good|]); constructor.
Lemma good5 mx k1 k2 k3 : 0 <= mx < 2 ^ 32 -> good (b5 mx [k1; k2; k3]). Proof. intros H. good_solve. Qed.
Lemma good6 parent : 0 <= parent < 256 -> good (b6 parent).
Proof.
  intros H. split; [unfold wf_numbers; cbn; lia|]. split; [vm_compute; auto|]. split; [|split; [reflexivity|]; split; [cbn; lia|]; repeat (constructor; [apply keys_good|]); constructor].
  split; [|reflexivity]. apply forallb_forall. intros x X. cbn in X. assert (x = parent) as -> by intuition congruence. unfold is_byte. lia.
Qed.
Lemma good7 : good b7. Proof. good_solve. Qed.

(** Their hashes, found with counter 0. *)
Lemma hash_first (m : bytes) (x digest : bytes) Q H : native_ped ped_one m = Ok (le_bytes 48 1) ->
  xof_bytes SIG_DOMAIN ([0] ++ x ++ le_bytes 48 1) = digest -> denotes_g1 377 (number (firstn 48 digest)) (Some Q) -> (48 <= length digest)%nat ->
  H = smul G1_COFACTOR (of1 (Some Q)) -> H <> gz ->
  g1_attempt_cip22 true (composite_hasher (native_ped ped_one)) z5_grp of1 G1_COFACTOR fq_sqrt SIG_DOMAIN m x = Ok (H, 0).
Proof.
  intros P X D L E N. apply C25_g1_cip22_least_counter.
  - apply composite_bytes. intros m' out E'. unfold native_ped, ped_one in E'. apply ok_inj in E'. subst out. apply le_bytes_is_bytes.
  - exact fq_sqrt_ok.
  - exists (le_bytes 48 1). split; [exact P|]. split; [lia|]. split; [|intros c' C; lia]. exists digest. split; [|split; [exact L|]].
    + cbn [xof composite_hasher]. rewrite <- X. exact (xof_bytes_ok SIG_DOMAIN ([0] ++ x ++ le_bytes 48 1) (Nat.le_refl 8)).
    + exists (Some Q). auto.
Qed.
Definition digest0 : bytes := [86; 129; 10; 36; 171; 48; 78; 108; 152; 9; 46; 78; 253; 94; 35; 41; 242; 66; 179; 56; 95; 30; 82; 214; 171; 57; 171; 248; 24; 252; 158; 223; 48; 60; 229; 109; 22; 144; 75; 10; 143; 181; 102; 23; 198; 182; 121; 26; 94; 62; 141; 59; 30; 1; 57; 31; 93; 118; 255; 193; 88; 238; 207; 37].
Definition digest6 : bytes := [64; 129; 20; 153; 181; 209; 34; 188; 188; 117; 110; 98; 38; 125; 127; 169; 28; 97; 236; 220; 220; 63; 200; 39; 163; 12; 49; 89; 11; 176; 137; 177; 86; 75; 15; 11; 96; 82; 101; 44; 120; 99; 249; 253; 50; 45; 202; 120; 173; 227; 135; 5; 88; 121; 90; 211; 26; 211; 112; 43; 118; 14; 128; 51].
Definition digest7 : bytes := [223; 228; 72; 30; 212; 52; 156; 168; 167; 84; 220; 99; 3; 168; 251; 65; 70; 251; 126; 37; 149; 80; 144; 153; 8; 131; 124; 81; 230; 243; 167; 31; 208; 200; 177; 250; 81; 221; 111; 189; 171; 35; 118; 135; 19; 232; 74; 171; 84; 75; 210; 188; 210; 230; 31; 46; 46; 119; 44; 44; 88; 2; 102; 178].
Definition pt0 := (fq_of 73177707083574676331375432752723950651442123615567776871391911106476702985094328016676934030218387728329347858774, fq_of 199477259098387301968861857692584185762213014292015018823930991231223978428904319073684092286229783652584450341448).
Definition pt6 := (fq_of 121553986257745619420379491340427209832592600301221731048451684053374945588366469109680077263765181408843297751360, fq_of 94062819907825079195155683564065966073462293793434406239934657698563124521079631523544680795936817832184866227490).
Definition pt7 := (fq_of 198949918432218041502257089511581235475323918409869563147705322684222294999054405184012366214343156058150746514655, fq_of 129886259045916885456583399363301157165535250117673924834835929813574855836318715900868799178733640979954852121785).
Ltac denotes_solve :=
  unfold denotes_g1; cbv zeta; split; [vm_compute; reflexivity|]; split; [intros [X _]; vm_compute in X; discriminate X|]; split; [vm_compute; reflexivity|];
  split; [apply qeqb_spec; vm_compute; reflexivity|];
  match goal with |- context [Z.testbit ?v ?i] => let t := eval vm_compute in (Z.testbit v i) in replace (Z.testbit v i) with t by (vm_compute; reflexivity) end;
  cbv iota; unfold le1; vm_compute; discriminate.
Lemma den0 : denotes_g1 377 (number (firstn 48 digest0)) (Some pt0). Proof. unfold pt0. denotes_solve. Qed.
Lemma den6 : denotes_g1 377 (number (firstn 48 digest6)) (Some pt6). Proof. unfold pt6. denotes_solve. Qed.
Lemma den7 : denotes_g1 377 (number (firstn 48 digest7)) (Some pt7). Proof. unfold pt7. denotes_solve. Qed.
Notation hash_of := (block_hash gen of1 to2 fq_sqrt ped_one true).
Lemma hash_block (b : epoch_block z5_grp) extra digest Q H :
  bits_be_to_bytes_le (snd (encode_inner_to_bits_cip22 (coords_of to2) gen b)) = Ok extra ->
  xof_bytes SIG_DOMAIN ([0] ++ extra ++ le_bytes 48 1) = digest -> denotes_g1 377 (number (firstn 48 digest)) (Some Q) -> (48 <= length digest)%nat ->
  H = smul G1_COFACTOR (of1 (Some Q)) -> H <> gz -> hash_of b H.
Proof.
  intros X D S L E N. assert (exists m, bits_be_to_bytes_le (fst (encode_inner_to_bits_cip22 (coords_of to2) gen b)) = Ok m) as (m & M) by (eexists; apply bits_be_to_bytes_le_ok).
  exists m, extra, 0. split.
  - unfold encode_inner_to_bytes_cip22. destruct (encode_inner_to_bits_cip22 (coords_of to2) gen b) as [l1 l2]. cbn [fst snd] in *. rewrite M, X. reflexivity.
  - eapply hash_first; eauto.
Qed.
Lemma hash0 : hash_of (dummy_block gen 3) n3.
Proof. eapply hash_block; [vm_compute; reflexivity| |exact den0|cbn; lia|vm_compute; reflexivity|discriminate]. vm_compute. reflexivity. Qed.
Lemma hash6 parent : hash_of (b6 parent) n2.
Proof. eapply hash_block; [vm_compute; reflexivity| |exact den6|cbn; lia|vm_compute; reflexivity|discriminate]. vm_compute. reflexivity. Qed.
Lemma hash7 : hash_of b7 n3.
Proof. eapply hash_block; [vm_compute; reflexivity| |exact den7|cbn; lia|vm_compute; reflexivity|discriminate]. vm_compute. reflexivity. Qed.

(** An honest chain, linked if the parent entropy of epoch 6 is 9. *)
Definition keys5 : list z5_grp := [n2; n3; n4].
Definition t6 (parent : Z) (signature : z5_grp) (bitmap : list bool) : transition z5_grp z5_grp := mk_transition (b6 parent) signature bitmap.
Definition t7 (signature : z5_grp) : transition z5_grp z5_grp := mk_transition b7 signature [false; true; true].
Notation honest5 := (honest e5 gen of2 to2 hash_of).
Ltac signers_solve := repeat constructor.
Ltac not_in := let X := fresh in intros X; repeat (destruct X as [X|X]; [discriminate X|]); destruct X.
Lemma chain7 (l : Prop) parent : 0 <= parent < 256 -> honest5 l 3 (b6 parent) [t7 n2].
Proof.
  intros R. eapply honest_step with (signing := [n2; n2]) (H := n3); [exact good7|reflexivity|intros _; reflexivity|signers_solve|not_in|discriminate|cbn; lia|cbn; lia|exact hash7|reflexivity|constructor].
Qed.
Lemma chain5 : honest5 (has_entropy (b5 1 keys5)) 3 (b5 1 keys5) ([t6 9 n2 [true; false; true]] ++ [t7 n2]).
Proof.
  eapply honest_step with (signing := [n2; n4]) (H := n2); [apply good6; lia|reflexivity|intros _; reflexivity|signers_solve|not_in|discriminate|cbn; lia|cbn; lia|apply hash6|reflexivity|apply chain7; lia].
Qed.
Example entropy_in_use : has_entropy (b5 1 keys5).
Proof. intros X. vm_compute in X. discriminate X. Qed.
Lemma sum7 : exists c, to2 (sum (eb_keys b7)) = Some c. Proof. eexists. reflexivity. Qed.
Lemma gen_nz : gen <> gz. Proof. discriminate. Qed.
Lemma padding6 parent : padding_ok gen of1 of2 to2 fq_sqrt ped_one true 3 (b6 parent).
Proof. split; [not_in|]. split; [apply keys_good|]. exists n3. exact hash0. Qed.
Lemma sizes_of helper b ts t mx (w : validator_set_update z5_grp z5_grp unit) :
  prove gen gen helper (Z.of_nat 3) b (ts ++ [t]) mx = Ok w -> length (eb_keys b) = 3%nat ->
  Forall (fun u => length (eb_keys (t_block u)) = 3%nat /\ length (t_bitmap u) = 3%nat) (ts ++ [t]) -> sizes 3 w.
Proof.
  intros W L F. pose proof W as W'. apply prove_shape in W as (_ & ds & E & FD & I & _). apply Forall_app in F as [F1 F2]. inversion F2 as [|? ? F3]; subst.
  assert (U : forall u : transition z5_grp z5_grp, length (eb_keys (t_block u)) = 3%nat /\ length (t_bitmap u) = 3%nat -> shape 3 (to_update u)).
  { intros u [U1 U2]. split; cbn [to_update su_data su_bitmap to_epoch_data ed_keys]; rewrite map_length; assumption. }
  assert (N : vsu_num_validators w = Z.of_nat 3).
  { unfold prove in W'. destruct (prove_updates _ _ _ _) as [us| |]; cbn [rbind] in W'; try discriminate W'.
    destruct (match helper with Some f => rbind (f (ts ++ [t])) (fun h => Ok (Some h)) | None => Ok None end) as [o| |]; cbn [rbind] in W'; try discriminate W'.
    destruct (prove_signature _ _ _) as [s| |]; cbn [rbind] in W'; try discriminate W'. apply ok_inj in W'. subst w. reflexivity. }
  split; [exact N|]. split; [vm_compute; reflexivity|]. rewrite E, I. split; [intros X; apply (f_equal (@length _)) in X; rewrite !app_length in X; cbn [length] in X; lia|].
  split; [cbn [to_epoch_data ed_keys]; rewrite map_length; exact L|]. apply Forall_app. split; [|apply Forall_app; split].
  - apply Forall_map. eapply Forall_impl; [|exact F1]. exact U.
  - eapply Forall_impl; [|exact FD]. intros u ->. apply U. split; reflexivity.
  - constructor; [apply U; exact F3|constructor].
Qed.
Notation circuit5 pin := (generate_constraints e5 gen gen of1 of2 to1 to2 fq_sqrt ped_one true pin false (fun (_ : unit) _ => true)).
(** C46, C47 with three dummies; the result meets the hypotheses of C42-C44 *)
Example proved5 : forall pin, exists w inputs, prove gen gen None (Z.of_nat 3) (b5 1 keys5) ([t6 9 n2 [true; false; true]] ++ [t7 n2]) 5 = Ok w /\
  length (vsu_epochs w) = 5%nat /\ sizes 3 w /\ vsu_helper w = None /\ prover (circuit5 pin w) = Val (inputs, true) /\ holds (circuit5 pin w) inputs.
Proof.
  intros pin. destruct (C46_complete z5_grp z5_grp z5_grp e5 gen gen of1 of2 to1 to2 fq_sqrt ped_one true pin false unit (fun _ _ => true) 3 (b5 1 keys5) [t6 9 n2 [true; false; true]] (t7 n2) 5 None
    fq_sqrt_ok eq_refl of1_neg gen_nz ltac:(vm_compute; reflexivity) (e5_linear gen) signatures_good (good5 1 n2 n3 n4 ltac:(lia)) chain5 sum7 ltac:(cbn; lia) (fun _ => padding6 9) I)
    as (w & i & P & L & R & HD & _).
  exists w, i. split; [exact P|]. split; [exact L|]. split; [eapply sizes_of; [exact P|reflexivity|repeat constructor]|]. split; [|split; [exact R|exact HD]].
  unfold prove in P. rewrite updates_ok in P by (cbn; lia). cbn [rbind] in P. rewrite signature_ok in P by (cbn; lia). apply ok_inj in P. subst w. reflexivity.
Qed.
Example progression5 : exists (w : validator_set_update z5_grp z5_grp unit) inputs (h0 : header z5_grp) headers last,
  holds (circuit5 true w) inputs /\ h_entropy h0 <> q0 /\
  epoch_assignment e5 gen gen to2 (opens_to of2) (hashes_to of1 (native_ped ped_one) true) (on_g1_point of1) (h_entropy h0 <> q0) 3 inputs h0 headers last
    ([(n2, n1); (n3, n4)] : list (z5_grp * z5_grp)) n4.
Proof.
  pose (h0 := header_of to2 (b5 1 keys5)). pose (h6 := header_of to2 (b6 9)). pose (h7 := header_of to2 b7).
  destruct (C46_complete z5_grp z5_grp z5_grp e5 gen gen of1 of2 to1 to2 fq_sqrt ped_one true true false unit (fun _ _ => true) 3 (b5 1 keys5) [t6 9 n2 [true; false; true]] (t7 n2) 2 None
    fq_sqrt_ok eq_refl of1_neg gen_nz ltac:(vm_compute; reflexivity) (e5_linear gen) signatures_good (good5 1 n2 n3 n4 ltac:(lia)) chain5 sum7 ltac:(cbn; lia) (fun _ => padding6 9) I)
    as (w & i & P & L & R & HD & NI).
  exists w, i, h0, [h6], h7. split; [exact HD|]. split; [intros X; apply (f_equal fqv) in X; vm_compute in X; discriminate X|].
  split; [apply (header_wf of2 to2 3), good5; lia|]. split; [|split; [intros X; apply (f_equal fqv) in X; vm_compute in X; discriminate X|split; [|split; [reflexivity|]]]].
  - eapply (chain_real (E1 := z5_grp) (E2 := z5_grp)) with (bitmap := [true; false; true]) (signing := [n2; n4] : list z5_grp) (H := n2 : z5_grp).
    + apply (header_wf of2 to2 3), good6. lia.
    + intros X; apply (f_equal fqv) in X; vm_compute in X; discriminate X.
    + apply fq_ext. vm_compute. reflexivity.
    + intros _. apply fq_ext. vm_compute. reflexivity.
    + split; [discriminate|]. split; [signers_solve|]. split; [not_in|]. vm_compute. split; [discriminate|reflexivity].
    + discriminate.
    + apply (header_hash gen of1 of2 to2 fq_sqrt ped_one true 3); [exact fq_sqrt_ok|reflexivity|exact of1_neg|apply good6; lia|apply hash6].
    + eapply (chain_real (E1 := z5_grp) (E2 := z5_grp)) with (bitmap := [false; true; true]) (signing := [n2; n2] : list z5_grp) (H := n3 : z5_grp).
      * apply (header_wf of2 to2 3), good7.
      * intros X; apply (f_equal fqv) in X; vm_compute in X; discriminate X.
      * apply fq_ext. vm_compute. reflexivity.
      * intros _. apply fq_ext. vm_compute. reflexivity.
      * split; [discriminate|]. split; [signers_solve|]. split; [not_in|]. vm_compute. split; [discriminate|reflexivity].
      * discriminate.
      * apply (header_hash gen of1 of2 to2 fq_sqrt ped_one true 3); [exact fq_sqrt_ok|reflexivity|exact of1_neg|exact good7|exact hash7].
      * constructor.
  - exists (to1 n4). destruct (signatures_good n4). auto.
  - destruct sum7 as ([x y] & Ec). destruct (commits_native gen to2 (b5 1 keys5) b7 x y Ec) as (i' & NI' & CI).
    assert (i = i') as <-. { change (t_block (t7 n2)) with b7 in NI. rewrite NI in NI'. apply ok_inj in NI'. injection NI' as E. apply map_injective in E; [exact E|exact fq_ext]. }
    exists (encode_coords (x, y)). do 2 eexists. split; [exists (x, y); split; [exact Ec|left; reflexivity]|].
    split; [apply pack_u8_native|]. split; [apply pack_u8_native|]. unfold h7, h0. rewrite (header_closing gen of2 to2 3 _ good7), (header_first gen of2 to2 3) by (apply good5; lia). exact CI.
Qed.

(** The other instances: an update for each of two epochs, with a proof or not. *)
Definition w2 (helper : option unit) : validator_set_update z5_grp z5_grp unit :=
  mk_vsu (to_epoch_data (b5 1 keys5)) (Z.of_nat 3) [to_update (t6 0 n0 [true; true; true]); to_update (t7 n0)] None helper.
Lemma sizes2 helper : sizes 3 (w2 helper).
Proof. split; [reflexivity|]. split; [vm_compute; reflexivity|]. split; [discriminate|]. split; [reflexivity|]. repeat constructor. Qed.
Lemma all_points s : on_g1_point of1 s.
Proof. exists (to1 s). destruct (signatures_good s). auto. Qed.
(** C43: entropy in use, and a block naming another parent *)
Example unlinked : forall pin, exists inputs,
  public_inputs (coords_of to2) gsum gen blake2_out (b5 1 keys5) b7 = Ok (Some (map fqv inputs)) /\ holds (circuit5 pin (w2 None)) inputs.
Proof.
  intros pin. apply (C43_unlinked_refuted z5_grp z5_grp z5_grp e5 gen gen of1 of2 to1 to2 fq_sqrt ped_one true pin false unit (fun _ _ => true) 3 (b5 1 keys5) [t6 200 n2 [true; false; true]] (t7 n2));
    try apply e5_linear; try exact gen_nz; try exact all_points; try exact fq_sqrt_ok; try exact of1_neg; try exact sum7; try apply sizes2; try reflexivity; [apply good5; lia|].
  eapply honest_step with (signing := [n2; n4]) (H := n2); [apply good6; lia|reflexivity|intros []|signers_solve|not_in|discriminate|cbn; lia|cbn; lia|apply hash6|reflexivity|apply chain7; lia].
Qed.
(** C45: the public threshold is 0, two of three validators have not signed *)
Example threshold_exceeded : forall pin, exists inputs,
  public_inputs (coords_of to2) gsum gen blake2_out (b5 0 keys5) b7 = Ok (Some (map fqv inputs)) /\ holds (circuit5 pin (w2 None)) inputs.
Proof.
  intros pin. apply (C45_threshold_refuted z5_grp z5_grp z5_grp e5 gen gen of1 of2 to1 to2 fq_sqrt ped_one true pin false unit (fun _ _ => true) 3 (b5 0 keys5) (2 ^ 32) [t6 9 n4 [true; false; false]] (t7 n2));
    try apply e5_linear; try exact gen_nz; try exact all_points; try exact fq_sqrt_ok; try exact of1_neg; try exact sum7; try apply sizes2; try reflexivity; [apply good5; lia|vm_compute; split; [discriminate|reflexivity]|].
  eapply honest_step with (signing := [n2]) (H := n2); [apply good6; lia|reflexivity|intros []|signers_solve|not_in|discriminate|cbn; lia|cbn; lia|apply hash6|reflexivity|apply chain7; lia].
Qed.
(** C39: hashes of free choice, here that of the point (2, -3) for epoch 6, not the hash of the block *)
Lemma any_point (b : epoch_block z5_grp) Q H : g1_equation Q -> H = smul G1_COFACTOR (of1 (Some Q)) -> any_hash gen of1 to2 ped_one b H.
Proof.
  intros E -> . assert (exists m x, encode_inner_to_bytes_cip22 (coords_of to2) gen b = Ok (m, x)) as (m & x & M).
  { unfold encode_inner_to_bytes_cip22. destruct (encode_inner_to_bits_cip22 (coords_of to2) gen b) as [l1 l2]. rewrite !bits_be_to_bytes_le_ok. cbn [rbind]. eauto. }
  exists m, x, (le_bytes 48 1), Q. auto.
Qed.
Example replayed : forall pin, exists inputs,
  public_inputs (coords_of to2) gsum gen blake2_out (b5 1 keys5) b7 = Ok (Some (map fqv inputs)) /\ holds (circuit5 pin (w2 (Some tt))) inputs.
Proof.
  intros pin. apply (C39_replay z5_grp z5_grp z5_grp e5 gen gen of1 of2 to1 to2 fq_sqrt ped_one true pin false unit (fun _ _ => true) 3 (b5 1 keys5) [t6 9 n3 [true; false; true]] (t7 n3));
    try apply e5_linear; try exact gen_nz; try exact all_points; try exact sum7; try apply sizes2; try reflexivity; [apply good5; lia| |discriminate].
  eapply honest_step with (signing := [n2; n4]) (H := n3); [apply good6; lia|reflexivity|intros []|signers_solve|not_in|discriminate|cbn; lia|cbn; lia| |reflexivity|].
  - apply (any_point _ (fq_of 2, fq_of (-3))); [apply qeqb_spec; vm_compute; reflexivity|vm_compute; reflexivity].
  - eapply honest_step with (signing := [n2; n2]) (H := n2); [exact good7|reflexivity|intros []|signers_solve|not_in|discriminate|cbn; lia|cbn; lia| |reflexivity|constructor].
    apply (any_point _ (fq_of 2, fq_of 3)); [apply qeqb_spec; vm_compute; reflexivity|vm_compute; reflexivity].
Qed.
(** C47: a validator with the padding key *)
Example padding_key5 : forall pin w inputs, prove gen gen None (Z.of_nat 3) (b5 1 [n1; n2; n4]) [t6 9 n2 [false; true; true]] 2 = Ok w ->
  prover (circuit5 pin w) <> Val (inputs, true).
Proof.
  intros pin w inputs. apply (C47_padding_key z5_grp z5_grp z5_grp e5 gen gen of1 of2 to1 to2 fq_sqrt ped_one true pin false unit (fun _ _ => true) 3 (b5 1 [n1; n2; n4]) [] (t6 9 n2 [false; true; true]) 2 None w inputs);
    try exact fq_sqrt_ok; try exact of1_neg; try reflexivity; [apply good5; lia| |cbn; lia|left; reflexivity].
  eapply honest_step with (signing := [n2; n4]) (H := n2); [apply good6; lia|reflexivity|intros _; reflexivity|signers_solve|not_in|discriminate|cbn; lia|cbn; lia|apply hash6|reflexivity|constructor].
Qed.
(** C56: whatever signs the substituted key has, its holder signs alone *)
Lemma twice_ok : exists q, twice = Some q /\ snd q <> q2_0 /\ on_twist twice = true.
Proof. eexists. split; [reflexivity|]. split; [intros X; apply (f_equal (fun q => fqv (fst q))) in X; vm_compute in X; discriminate X|vm_compute; reflexivity]. Qed.
Lemma double_neg : of2 twice = n2 /\ of2 (g2_neg twice) = n3. Proof. split; vm_compute; reflexivity. Qed.
Example forged5 : exists inputs,
  public_inputs (coords_of to2) gsum gen blake2_out (b5 2 [n4; n4; n4]) b7 = Ok (Some (map fqv inputs)) /\ holds (circuit5 false (w2 None)) inputs.
Proof.
  destruct (C56_forgery_refuted z5_grp z5_grp z5_grp e5 gen gen of1 of2 to1 to2 fq_sqrt ped_one true false unit (fun _ _ => true) 3 (b5 2 [n4; n4; n4]) [twice; twice; twice]
    (e5_linear gen) gen_nz all_points fq_sqrt_ok eq_refl of1_neg (good5 2 n4 n4 n4 ltac:(lia))) as (Qs & F & A); [repeat (constructor; [discriminate|]); constructor|reflexivity|repeat (constructor; [exact twice_ok|]); constructor|].
  inversion F as [|? Q ? Qs1 H F1]; subst. inversion F1 as [|? Q2 ? Qs2 H2 F2]; subst. inversion F2 as [|? Q3 ? Qs3 H3 F3]; subst. inversion F3; subst.
  pose (s := if match of2 Q with n2 => true | _ => false end then n4 else n1).
  assert (K : of2 Q = n2 \/ of2 Q = n3). { destruct H as [-> | ->]; [left|right]; apply double_neg. }
  apply (A [t6 9 s [true; false; false]] (t7 n2)); try exact sum7; try apply sizes2; try reflexivity.
  eapply honest_step with (signing := [of2 Q]) (H := n2); [apply good6; lia|reflexivity|intros []|signers_solve| | |cbn; lia|cbn; lia|apply hash6| |apply chain7; lia];
    unfold verifies, s; cbn [t_signature t6]; destruct K as [-> | ->]; try reflexivity; try discriminate; not_in.
Qed.
(** C44: a header that shows the fields of a block of points, and C45 *)
Lemma flat_map_map {A B C} (f : B -> list C) (g : A -> B) l : flat_map f (map g l) = flat_map (fun x => f (g x)) l.
Proof. induction l as [|x l IH]; [reflexivity|]. cbn [map flat_map]. rewrite IH. reflexivity. Qed.
Lemma points_first i r e pe m n (ks : list z5_grp) :
  encode_first_epoch_to_bytes_cip22 (coords_of to2) gen (mk_block i r e pe m n ks) = enc_first (mk_block i r e pe m n (map to2 ks)).
Proof.
  unfold enc_first, encode_first_epoch_to_bytes_cip22, encode_to_bits_cip22, encode_keys_padded.
  cbn [eb_index eb_parent_entropy eb_max_non_signers eb_max_validators eb_keys]. rewrite map_length, flat_map_map. reflexivity.
Qed.
Example shown5 : shows_first of2 (header_of to2 (b5 1 keys5)) (mk_block 5 0 (ent 9) (ent 8) 1 3 (map to2 keys5)).
Proof.
  apply (C44_first_shown z5_grp of2 3).
  - apply (header_wf of2 to2 3), good5. lia.
  - split; [unfold wf_numbers; cbn; lia|]. split; [vm_compute; split; [reflexivity|lia]|]. split; [vm_compute; split; [reflexivity|lia]|]. vm_compute. reflexivity.
  - rewrite (header_first gen of2 to2 3) by (apply good5; lia). unfold b5. rewrite <- points_first. unfold encode_first_epoch_to_bytes_cip22. reflexivity.
Qed.
Example threshold5 : fqv (m_max (committee_of (header_of to2 (b5 1 keys5)))) = 1.
Proof. apply (C45_in_range z5_grp of2 _ _ shown5). vm_compute. reflexivity. Qed.
