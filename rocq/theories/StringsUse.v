(** How many strings are accepted as the signature on a message. *)
From Verif Require Import Base Constants Group Field Curve BlsModel EncodingModel PointModel HashCurveSpec CodecModel CodecSpec FfiModel
  CurveGroups CurveOrder OrderSpec OrderProofs TwistSpec TwistProofs RealSpec RealModel RealProofs PropReal StringsSpec StringsProofs.

Lemma times_in k H : 0 <= k -> in_g1 H -> in_g1 (g1_times k H).
Proof.
  intros B I. destruct (in_g1_of H I) as (Q & K & ->). rewrite g1_times_to by exact B. apply in_g1_iff. rewrite <- smul_mul, Z.mul_comm, smul_mul, K. apply smul_gz.
Qed.
Section Use.
  Context (GT : grp) (e : g1_point -> g2_point -> GT) (L : bilinear e) (compat : bool) (ped : bytes -> result bytes) (sqrt : fq -> option fq) (sqrt2 : fq2 -> option fq2).
  Context (PB : forall m out, ped m = Ok out -> is_bytes out = true) (Hs : sqrt_spec qmul sqrt) (Hs2 : sqrt_spec q2mul sqrt2).
  Context (pk m x : bytes) (c f : bool) (H : g1_point) (sk : Z) (Hb : is_bytes pk = true) (Hsk : 0 <= sk < r)
    (Hpk : public_key_deserialize sqrt2 g2_test pk = Ok (g2_times sk g2_generator)) (HH : hashed compat ped sqrt c f SIG_DOMAIN m x H).
  Lemma accepted_iff sig : length sig = 48%nat /\ is_bytes sig = true ->
    (c_verify GT e L compat ped sqrt sqrt2 pk sig m x c f = Some true <-> signature_deserialize sqrt g1_test sig = Ok (g1_times sk H)).
  Proof.
    intros S1. destruct S1 as (E & Hl). rewrite (C70_verify GT e L compat ped sqrt sqrt2 PB Hs Hs2 pk sig m x c f Hb Hl).
    destruct (proj1 (key_in_g2 sqrt2 pk _ Hs2 Hb) Hpk) as (L1 & W & _). rewrite (signature_in_g1 sqrt sig _ Hs Hl). split.
    - intros (sk' & H' & B & HH' & _ & W' & L2 & WS).
      assert (sk' = sk) as ->.
      { assert (D : public_key_deserialize sqrt2 g2_test pk = Ok (g2_times sk' g2_generator)).
        { apply (key_in_g2 sqrt2 pk _ Hs2 Hb). split; [exact L1|]. split; [exact W'|]. exists sk'. split; [exact B|reflexivity]. }
        rewrite Hpk in D. apply g2_unique; [exact B|exact Hsk|congruence]. }
      rewrite (hashed_unique _ _ _ _ _ _ _ _ _ _ HH' HH) in WS. split; [exact L2|]. split; [exact WS|]. apply times_in; [apply Hsk|].
      exact (proj1 (hashed_in _ _ _ PB Hs _ _ _ _ _ _ HH)).
    - intros (L2 & WS & _). exists sk, H. split; [exact Hsk|]. split; [exact HH|]. split; [exact L1|]. split; [exact W|]. split; [exact L2|exact WS].
  Qed.
  Lemma one_accepted : sk <> 0 -> counted (fun sig => (length sig = 48%nat /\ is_bytes sig = true) /\ c_verify GT e L compat ped sqrt sqrt2 pk sig m x c f = Some true) 1.
  Proof.
    intros N. destruct (hashed_in _ _ _ PB Hs _ _ _ _ _ _ HH) as (I & NH). pose proof (times_in sk H (proj1 Hsk) I) as (k & B & E).
    assert (K : 0 < k < r).
    { assert (k <> 0); [|lia]. intros ->. apply N. exact (times_zero sk H Hsk I NH E). }
    destruct (signature_string sqrt Hs k K) as (l & (S1 & D) & U). exists [l]. split; [constructor; [intros []|constructor]|]. split; [|reflexivity].
    intros a. split.
    - intros [<-|[]]. split; [exact S1|]. apply (accepted_iff l S1). rewrite E. exact D.
    - intros (S2 & V). left. apply (accepted_iff a S2) in V. rewrite E in V. symmetry. apply U; [apply S2|apply S2|exact V].
  Qed.
  Lemma neutral_accepted : sk = 0 -> counted (fun sig => (length sig = 48%nat /\ is_bytes sig = true) /\ c_verify GT e L compat ped sqrt sqrt2 pk sig m x c f = Some true) p.
  Proof.
    intros N. apply (counted_ext (fun l => (length l = 48%nat /\ is_bytes l = true) /\ signature_deserialize sqrt g1_test l = Ok None)); [|exact (signature_infinity sqrt Hs)].
    assert (Z0 : g1_times sk H = None) by (rewrite N; reflexivity). intros l. split; intros (S1 & V); (split; [exact S1|]); pose proof (accepted_iff l S1) as K; rewrite Z0 in K; apply K; exact V.
  Qed.
End Use.
