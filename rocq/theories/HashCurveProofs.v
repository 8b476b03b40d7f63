(** Proofs for the try-and-increment hash to curve. *)
From Verif Require Import Base Constants Group Field Curve BlsModel EncodingModel EncodingProofs Blake2 HasherModel HasherProofs PointModel PointProofs HashCurveModel HashCurveSpec.

(** ** the compat bit *)
Lemma compat_last_ok b : is_byte b = true ->
  is_byte (compat_last b) = true /\ compat_last b mod 2 ^ 1 = b mod 2 ^ 1 /\
  Z.testbit (compat_last b) 6 = Z.testbit b 6 /\ Z.testbit (compat_last b) 7 = Z.testbit b 1.
Proof.
  intros Hb.
  assert (H : (is_byte (compat_last b) && (compat_last b mod 2 ^ 1 =? b mod 2 ^ 1) &&
    Bool.eqb (Z.testbit (compat_last b) 6) (Z.testbit b 6) && Bool.eqb (Z.testbit (compat_last b) 7) (Z.testbit b 1)) = true).
  { revert b Hb. apply (bytes_case (fun b => is_byte (compat_last b) && (compat_last b mod 2 ^ 1 =? b mod 2 ^ 1) &&
    Bool.eqb (Z.testbit (compat_last b) 6) (Z.testbit b 6) && Bool.eqb (Z.testbit (compat_last b) 7) (Z.testbit b 1))). vm_compute. reflexivity. }
  rewrite !andb_true_iff, !eqb_true_iff, Z.eqb_eq in H. tauto.
Qed.
Lemma compat_fix_snoc n l0 b : length l0 = n -> compat_fix (S n) (l0 ++ [b]) = l0 ++ [compat_last b].
Proof.
  intros H. unfold compat_fix. replace (S n - 1)%nat with n by lia.
  rewrite firstn_app, skipn_app, H, Nat.sub_diag, firstn_O, skipn_O, app_nil_r, firstn_all2, skipn_all2 by lia.
  reflexivity.
Qed.
Lemma compat48 l : length l = 48%nat -> is_bytes l = true ->
  length (compat_fix 48 l) = 48%nat /\ is_bytes (compat_fix 48 l) = true /\
  number (compat_fix 48 l) mod 2 ^ 377 = number l mod 2 ^ 377 /\
  Z.testbit (number (compat_fix 48 l)) 382 = Z.testbit (number l) 382 /\
  Z.testbit (number (compat_fix 48 l)) 383 = Z.testbit (number l) 377.
Proof.
  intros Hl Hb. destruct (form48_exists l Hl Hb) as (l0 & b & F).
  destruct (compat_last_ok b (f48_byte _ _ _ F)) as (C0 & C1 & C2 & C3).
  assert (F' : form48 (compat_fix 48 l) l0 (compat_last b)).
  { constructor; [|apply F|apply F|exact C0]. rewrite (f48_eq _ _ _ F). apply compat_fix_snoc, F. }
  split; [|split; [|split; [|split]]].
  - rewrite (f48_eq _ _ _ F'), app_length, (f48_len _ _ _ F'). reflexivity.
  - rewrite (f48_eq _ _ _ F'). rewrite (f48_eq _ _ _ F) in Hb. rewrite is_bytes_app in *. apply andb_true_iff in Hb.
    apply andb_true_iff. split; [tauto|]. cbn. rewrite C0. reflexivity.
  - rewrite (form48_mod _ _ _ F), (form48_mod _ _ _ F'), C1. reflexivity.
  - change 382 with (376 + 6). rewrite (form48_bit _ _ _ _ F), (form48_bit _ _ _ _ F') by lia. exact C2.
  - change 383 with (376 + 7). change 377 with (376 + 1). rewrite (form48_bit _ _ _ _ F), (form48_bit _ _ _ _ F') by lia. exact C3.
Qed.
Lemma compat96_split l : length l = 96%nat -> compat_fix 96 l = firstn 48 l ++ compat_fix 48 (skipn 48 l).
Proof.
  intros H. destruct (split_last l 95 H) as (l1 & b & -> & Hl). rewrite (compat_fix_snoc 95) by exact Hl.
  rewrite firstn_app, skipn_app, Hl. cbn [Nat.sub]. rewrite firstn_O, app_nil_r. change (skipn 0 [b]) with [b].
  rewrite (compat_fix_snoc 47). 2:{ rewrite skipn_length. lia. }
  rewrite app_assoc, firstn_skipn. reflexivity.
Qed.
Lemma compat96 l : length l = 96%nat -> is_bytes l = true ->
  length (compat_fix 96 l) = 96%nat /\ is_bytes (compat_fix 96 l) = true /\
  number (compat_fix 96 l) mod 2 ^ 377 = number l mod 2 ^ 377 /\
  (number (compat_fix 96 l) / 2 ^ 384) mod 2 ^ 377 = (number l / 2 ^ 384) mod 2 ^ 377 /\
  Z.testbit (number (compat_fix 96 l)) 766 = Z.testbit (number l) 766 /\
  Z.testbit (number (compat_fix 96 l)) 767 = Z.testbit (number l) 761.
Proof.
  intros Hl Hb. destruct (form96 l Hl Hb) as (_ & H0 & H1 & B0 & B1).
  destruct (compat48 _ H1 B1) as (C0 & C1 & C2 & C3 & C4).
  set (l' := compat_fix 96 l). assert (El : l' = firstn 48 l ++ compat_fix 48 (skipn 48 l)) by (apply compat96_split; exact Hl).
  assert (Hl' : length l' = 96%nat) by (rewrite El, app_length, H0, C0; reflexivity).
  assert (Hb' : is_bytes l' = true) by (rewrite El, is_bytes_app, B0, C1; reflexivity).
  assert (S0 : firstn 48 l' = firstn 48 l) by (rewrite El, firstn_app, H0, Nat.sub_diag, firstn_O, app_nil_r; apply firstn_all2; lia).
  assert (S1 : skipn 48 l' = compat_fix 48 (skipn 48 l)).
  { rewrite El, skipn_app, H0, Nat.sub_diag, skipn_O, skipn_all2 by lia. reflexivity. }
  destruct (number96 l Hl Hb) as (N0 & N1 & N2). destruct (number96 l' Hl' Hb') as (N0' & N1' & N2').
  rewrite S0 in N0'. rewrite S1 in N1', N2'.
  split; [exact Hl'|]. split; [exact Hb'|]. split; [congruence|]. split; [congruence|].
  split.
  - change 766 with (384 + 382). rewrite <- N2, <- N2' by lia. exact C3.
  - change 767 with (384 + 383). change 761 with (384 + 377). rewrite <- N2, <- N2' by lia. exact C4.
Qed.

Lemma g1_candidate_decode (compat : bool) sqrt l P : sqrt_spec qmul sqrt -> length l = 48%nat -> is_bytes l = true ->
  g1_from_random_bytes sqrt (if compat then compat_fix 48 l else l) = Some P <-> denotes_g1 (g1_sign_bit compat) (number l) P.
Proof.
  intros Hs Hl Hb. destruct compat; [|apply g1_decode_iff; assumption].
  destruct (compat48 l Hl Hb) as (C0 & C1 & C2 & C3 & C4).
  rewrite (g1_decode_iff sqrt _ P Hs C0 C1). unfold denotes_g1, g1_sign_bit. rewrite C2, C3, C4. reflexivity.
Qed.
Lemma g2_candidate_decode (compat : bool) sqrt l P : sqrt_spec q2mul sqrt -> length l = 96%nat -> is_bytes l = true ->
  g2_from_random_bytes sqrt (if compat then compat_fix 96 l else l) = Some P <-> denotes_g2 (g2_sign_bit compat) (number l) P.
Proof.
  intros Hs Hl Hb. destruct compat; [|apply g2_decode_iff; assumption].
  destruct (compat96 l Hl Hb) as (C0 & C1 & C2 & C3 & C4 & C5).
  rewrite (g2_decode_iff sqrt _ P Hs C0 C1). unfold denotes_g2, g2_sign_bit. rewrite C2, C3, C4, C5. reflexivity.
Qed.

(** ** the loop *)
Section Loop.
  Context {E : grp}.
  Implicit Types f : Z -> result (option E).
  Lemma tries_ok f a n P c :
    tries E f (map Z.of_nat (seq a n)) = Ok (P, c) <->
    exists k, (k < n)%nat /\ c = Z.of_nat (a + k) /\ f c = Ok (Some P) /\
      forall j, (j < k)%nat -> f (Z.of_nat (a + j)) = Ok None.
  Proof.
    revert a. induction n as [|n IH]; intros a; cbn [seq map tries].
    - split; [discriminate|]. intros (k & H & _). lia.
    - split.
      + intros H. destruct (f (Z.of_nat a)) as [[Q|]|x|] eqn:F; cbn [rbind] in H; try discriminate.
        * injection H as <- <-. exists 0%nat. rewrite Nat.add_0_r. repeat split; auto; [lia|intros; lia].
        * apply IH in H. destruct H as (k & Hk & -> & Hf & Hj). exists (S k). replace (a + S k)%nat with (S a + k)%nat by lia.
          repeat split; auto; [lia|]. intros [|j] Hlt; [rewrite Nat.add_0_r; exact F|].
          replace (a + S j)%nat with (S a + j)%nat by lia. apply Hj. lia.
      + intros (k & Hk & -> & Hf & Hj). destruct k as [|k].
        * rewrite Nat.add_0_r in *. rewrite Hf. reflexivity.
        * assert (F : f (Z.of_nat a) = Ok None) by (rewrite <- (Nat.add_0_r a); apply Hj; lia).
          rewrite F. cbn [rbind]. apply IH. exists k. replace (S a + k)%nat with (a + S k)%nat by lia.
          repeat split; auto; [lia|]. intros j Hlt. replace (S a + j)%nat with (a + S j)%nat by lia. apply Hj. lia.
  Qed.
  Lemma tries_err f a n x :
    tries E f (map Z.of_nat (seq a n)) = Err x <->
    (exists k, (k < n)%nat /\ f (Z.of_nat (a + k)) = Err x /\ forall j, (j < k)%nat -> f (Z.of_nat (a + j)) = Ok None) \/
    (x = HashToCurveError /\ forall j, (j < n)%nat -> f (Z.of_nat (a + j)) = Ok None).
  Proof.
    revert a. induction n as [|n IH]; intros a; cbn [seq map tries].
    - split.
      + injection 1 as <-. right. split; [reflexivity|intros; lia].
      + intros [(k & H & _)|[-> _]]; [lia|reflexivity].
    - split.
      + intros H. destruct (f (Z.of_nat a)) as [[Q|]|y|] eqn:F; cbn [rbind] in H; try discriminate.
        * apply IH in H. destruct H as [(k & Hk & Hf & Hj)|[-> Hj]].
          -- left. exists (S k). replace (a + S k)%nat with (S a + k)%nat by lia. repeat split; auto; [lia|].
             intros [|j] Hlt; [rewrite Nat.add_0_r; exact F|]. replace (a + S j)%nat with (S a + j)%nat by lia. apply Hj. lia.
          -- right. split; [reflexivity|]. intros [|j] Hlt; [rewrite Nat.add_0_r; exact F|].
             replace (a + S j)%nat with (S a + j)%nat by lia. apply Hj. lia.
        * injection H as <-. left. exists 0%nat. rewrite Nat.add_0_r. repeat split; auto; [lia|intros; lia].
      + intros [(k & Hk & Hf & Hj)|[-> Hj]].
        * destruct k as [|k]; [rewrite Nat.add_0_r in Hf; rewrite Hf; reflexivity|].
          assert (F : f (Z.of_nat a) = Ok None) by (rewrite <- (Nat.add_0_r a); apply Hj; lia).
          rewrite F. cbn [rbind]. apply IH. left. exists k. replace (S a + k)%nat with (a + S k)%nat by lia.
          repeat split; auto; [lia|]. intros j Hlt. replace (S a + j)%nat with (a + S j)%nat by lia. apply Hj. lia.
        * assert (F : f (Z.of_nat a) = Ok None) by (rewrite <- (Nat.add_0_r a); apply Hj; lia).
          rewrite F. cbn [rbind]. apply IH. right. split; [reflexivity|]. intros j Hlt.
          replace (S a + j)%nat with (a + S j)%nat by lia. apply Hj. lia.
  Qed.
  Lemma counters_ok f P c : tries E f counters = Ok (P, c) <->
    0 <= c < 255 /\ f c = Ok (Some P) /\ forall c', 0 <= c' < c -> f c' = Ok None.
  Proof.
    unfold counters. rewrite tries_ok. split.
    - intros (k & Hk & -> & Hf & Hj). cbn [Nat.add] in *. unfold NUM_TRIES in Hk. split; [lia|]. split; [exact Hf|].
      intros c' Hc. replace c' with (Z.of_nat (Z.to_nat c')) by lia. apply Hj. lia.
    - intros (Hc & Hf & Hj). exists (Z.to_nat c). cbn [Nat.add]. unfold NUM_TRIES. repeat split; auto; [lia|lia|].
      intros j Hlt. apply Hj. lia.
  Qed.
  Lemma counters_err f x : tries E f counters = Err x <->
    (exists c, 0 <= c < 255 /\ f c = Err x /\ forall c', 0 <= c' < c -> f c' = Ok None) \/
    (x = HashToCurveError /\ forall c, 0 <= c < 255 -> f c = Ok None).
  Proof.
    unfold counters. rewrite tries_err. unfold NUM_TRIES. cbn [Nat.add]. split.
    - intros [(k & Hk & Hf & Hj)|[-> Hj]].
      + left. exists (Z.of_nat k). split; [lia|]. split; [exact Hf|]. intros c' Hc.
        replace c' with (Z.of_nat (Z.to_nat c')) by lia. apply Hj. lia.
      + right. split; [reflexivity|]. intros c Hc. replace c with (Z.of_nat (Z.to_nat c)) by lia. apply Hj. lia.
    - intros [(c & Hc & Hf & Hj)|[-> Hj]].
      + left. exists (Z.to_nat c). rewrite Z2Nat.id by lia. repeat split; auto; [lia|]. intros j Hlt. apply Hj. lia.
      + right. split; [reflexivity|]. intros j Hlt. apply Hj. lia.
  Qed.
End Loop.

(** ** candidates *)
Section Candidate.
  Context {K : Type} {E : grp} (of_point : apoint K -> E) (cofactor : Z) (num_bytes : nat)
          (decode : bytes -> option (apoint K)) (compat : bool) (denotes : Z -> option (K * K) -> Prop).
  Hypothesis decode_ok : forall l P, length l = num_bytes -> is_bytes l = true ->
    decode (if compat then compat_fix num_bytes l else l) = Some P <-> denotes (number l) P.

  Lemma candidate_some out P : is_bytes out = true ->
    candidate E of_point cofactor num_bytes decode compat out = Ok (Some P) <->
    (num_bytes <= length out)%nat /\ gives denotes of_point cofactor num_bytes out P.
  Proof.
    intros Hb. unfold candidate, gives. destruct (Nat.ltb_spec (length out) num_bytes) as [Hl|Hl]; [split; [discriminate|lia]|].
    assert (Hf : length (firstn num_bytes out) = num_bytes) by (rewrite firstn_length; lia).
    pose proof (fun Q => decode_ok (firstn num_bytes out) Q Hf (is_bytes_firstn _ _ Hb)) as D.
    set (l := if compat then _ else _) in *. destruct (decode l) as [Q|] eqn:F.
    - destruct (geqb (smul cofactor (of_point Q)) gz) eqn:G.
      + split; [discriminate|]. intros (_ & Q' & HQ & -> & HP). apply D in HQ. injection HQ as ->.
        exfalso. apply HP, geqb_spec, G.
      + split.
        * injection 1 as <-. split; [exact Hl|]. exists Q. split; [apply D; reflexivity|]. split; [reflexivity|].
          apply geqb_neq, G.
        * intros (_ & Q' & HQ & -> & HP). apply D in HQ. injection HQ as ->. reflexivity.
    - split; [discriminate|]. intros (_ & Q & HQ & _). apply D in HQ. discriminate.
  Qed.
  Lemma candidate_none out : is_bytes out = true ->
    candidate E of_point cofactor num_bytes decode compat out = Ok None <->
    (num_bytes <= length out)%nat /\ forall P, ~ gives denotes of_point cofactor num_bytes out P.
  Proof.
    intros Hb. split.
    - intros H. assert (Hl : (num_bytes <= length out)%nat).
      { unfold candidate in H. destruct (Nat.ltb_spec (length out) num_bytes); [discriminate|assumption]. }
      split; [exact Hl|]. intros P HP. assert (candidate E of_point cofactor num_bytes decode compat out = Ok (Some P)) by (apply candidate_some; auto).
      congruence.
    - intros [Hl HN]. destruct (candidate E of_point cofactor num_bytes decode compat out) as [[P|]|x|] eqn:F; [|reflexivity| |].
      + apply candidate_some in F; [|exact Hb]. destruct (HN P). tauto.
      + exfalso. revert F. unfold candidate. destruct (_ <? _)%nat; [discriminate|]. destruct (decode _); [|discriminate]. destruct (geqb _ _); discriminate.
      + exfalso. revert F. unfold candidate. destruct (Nat.ltb_spec (length out) num_bytes); [lia|]. destruct (decode _); [|discriminate]. destruct (geqb _ _); discriminate.
  Qed.
  Lemma candidate_not_err out x : candidate E of_point cofactor num_bytes decode compat out <> Err x.
  Proof. unfold candidate. destruct (_ <? _)%nat; [discriminate|]. destruct (decode _); [|discriminate]. destruct (geqb _ _); discriminate. Qed.
End Candidate.

(** ** the two hash functions *)
Section Hash.
  Context {K : Type} {E : grp} (of_point : apoint K -> E) (cofactor : Z) (num_bytes : nat)
          (decode : bytes -> option (apoint K)) (compat : bool) (denotes : Z -> option (K * K) -> Prop).
  Hypothesis decode_ok : forall l P, length l = num_bytes -> is_bytes l = true ->
    decode (if compat then compat_fix num_bytes l else l) = Some P <-> denotes (number l) P.
  Context (h : HasherModel.hasher).
  Hypothesis h_bytes : bytes_hasher h.
  Notation "'gv'" := (gives denotes of_point cofactor num_bytes).
  Notation hb := (hash_bytes num_bytes).

  Lemma hash_is_bytes d m n out : hash h d m n = Ok out -> is_bytes out = true.
  Proof. unfold hash. destruct (crh h d m n) as [x|e|]; cbn [rbind]; try discriminate. apply h_bytes. Qed.

  Lemma tries_least (digest : Z -> result bytes) P c :
    (forall c out, digest c = Ok out -> is_bytes out = true) ->
    tries E (fun c => rbind (digest c) (candidate E of_point cofactor num_bytes decode compat)) counters = Ok (P, c) <->
    least_success digest num_bytes gv P c.
  Proof.
    intros Hd. rewrite counters_ok. unfold least_success, unusable. split.
    - intros (Hc & Hf & Hj). split; [exact Hc|]. split.
      + destruct (digest c) as [out|e|] eqn:D; cbn [rbind] in Hf; try discriminate. exists out. split; [reflexivity|].
        apply (candidate_some of_point cofactor num_bytes decode compat denotes decode_ok) in Hf; [tauto|apply (Hd c), D].
      + intros c' Hc'. specialize (Hj c' Hc'). destruct (digest c') as [out|e|] eqn:D; cbn [rbind] in Hj; try discriminate.
        exists out. split; [reflexivity|].
        apply (candidate_none of_point cofactor num_bytes decode compat denotes decode_ok) in Hj; [tauto|apply (Hd c'), D].
    - intros (Hc & (out & D & Hl & Hg) & Hj). split; [exact Hc|]. split.
      + rewrite D. cbn [rbind]. apply (candidate_some of_point cofactor num_bytes decode compat denotes decode_ok); [apply (Hd c), D|tauto].
      + intros c' Hc'. destruct (Hj c' Hc') as (out' & D' & Hl' & Hg'). rewrite D'. cbn [rbind].
        apply (candidate_none of_point cofactor num_bytes decode compat denotes decode_ok); [apply (Hd c'), D'|tauto].
  Qed.
  Lemma tries_fail (digest : Z -> result bytes) x :
    (forall c out, digest c = Ok out -> is_bytes out = true) ->
    tries E (fun c => rbind (digest c) (candidate E of_point cofactor num_bytes decode compat)) counters = Err x <->
    first_error digest num_bytes gv x \/ (x = HashToCurveError /\ no_success digest num_bytes gv).
  Proof.
    intros Hd. rewrite counters_err. unfold first_error, no_success.
    assert (HN : forall c, rbind (digest c) (candidate E of_point cofactor num_bytes decode compat) = Ok None <->
      unusable digest num_bytes gv c).
    { intros c. unfold unusable. split.
      - destruct (digest c) as [out|e|] eqn:D; cbn [rbind]; try discriminate. intros H. exists out. split; [reflexivity|].
        apply (candidate_none of_point cofactor num_bytes decode compat denotes decode_ok) in H; [tauto|apply (Hd c), D].
      - intros (out & D & H). rewrite D. cbn [rbind].
        apply (candidate_none of_point cofactor num_bytes decode compat denotes decode_ok); [apply (Hd c), D|tauto]. }
    assert (HE : forall c, rbind (digest c) (candidate E of_point cofactor num_bytes decode compat) = Err x <-> digest c = Err x).
    { intros c. destruct (digest c) as [out|e|] eqn:D; cbn [rbind]; [|split; injection 1 as ->; reflexivity|split; discriminate].
      split; [intros H; destruct (candidate_not_err of_point cofactor num_bytes decode compat out x H)|discriminate]. }
    setoid_rewrite HN. setoid_rewrite HE. reflexivity.
  Qed.

  Notation attempt := (hash_with_attempt E of_point cofactor num_bytes decode compat h).
  Notation attempt22 := (hash_with_attempt_cip22 E of_point cofactor num_bytes decode compat h).
  Lemma plain_ok d m x P c : attempt d m x = Ok (P, c) <->
    least_success (fun c => hash h d ([c] ++ x ++ m) hb) num_bytes gv P c.
  Proof. apply tries_least. intros c' out. apply hash_is_bytes. Qed.
  Lemma plain_err d m x e : attempt d m x = Err e <->
    first_error (fun c => hash h d ([c] ++ x ++ m) hb) num_bytes gv e \/
    (e = HashToCurveError /\ no_success (fun c => hash h d ([c] ++ x ++ m) hb) num_bytes gv).
  Proof. apply tries_fail. intros c' out. apply hash_is_bytes. Qed.
  Lemma cip22_ok d m x P c : attempt22 d m x = Ok (P, c) <->
    exists inner, crh h d m hb = Ok inner /\
      least_success (fun c => xof h d ([c] ++ x ++ inner) hb) num_bytes gv P c.
  Proof.
    unfold hash_with_attempt_cip22. destruct (crh h d m hb) as [inner|e|]; cbn [rbind].
    - unfold try_cip22. rewrite tries_least by (intros c' out; apply h_bytes).
      split; [intros H; exists inner; auto|intros (i & Hi & H); injection Hi as <-; exact H].
    - split; [discriminate|intros (i & Hi & _); discriminate].
    - split; [discriminate|intros (i & Hi & _); discriminate].
  Qed.
  Lemma cip22_err d m x e : attempt22 d m x = Err e <->
    crh h d m hb = Err e \/
    exists inner, crh h d m hb = Ok inner /\
      (first_error (fun c => xof h d ([c] ++ x ++ inner) hb) num_bytes gv e \/
       (e = HashToCurveError /\ no_success (fun c => xof h d ([c] ++ x ++ inner) hb) num_bytes gv)).
  Proof.
    unfold hash_with_attempt_cip22. destruct (crh h d m hb) as [inner|e'|]; cbn [rbind].
    - unfold try_cip22. rewrite tries_fail by (intros c' out; apply h_bytes).
      split; [intros H; right; exists inner; auto|]. intros [?|(i & Hi & H)]; [discriminate|]. injection Hi as <-. exact H.
    - split; [injection 1 as ->; left; reflexivity|]. intros [H|(i & Hi & _)]; [injection H as ->; reflexivity|discriminate].
    - split; [discriminate|]. intros [H|(i & Hi & _)]; discriminate.
  Qed.

  (** ** the subgroup *)
  Hypothesis cg : curve_group E of_point cofactor.
  Lemma gives_subgroup out P : gv out P -> P <> gz /\ smul r P = gz /\ (forall k, smul k P = gz -> (r | k)).
  Proof.
    intros (Q & _ & -> & Hnz). assert (Hr : smul r (smul cofactor (of_point Q)) = gz) by (rewrite <- smul_mul; apply cg).
    split; [exact Hnz|]. split; [exact Hr|]. intros k. apply smul_eq_0_divide; assumption.
  Qed.
  Lemma plain_subgroup d m x P c : attempt d m x = Ok (P, c) -> P <> gz /\ smul r P = gz /\ (forall k, smul k P = gz -> (r | k)).
  Proof. rewrite plain_ok. intros (_ & (out & _ & _ & Hg) & _). apply (gives_subgroup out), Hg. Qed.
  Lemma cip22_subgroup d m x P c : attempt22 d m x = Ok (P, c) -> P <> gz /\ smul r P = gz /\ (forall k, smul k P = gz -> (r | k)).
  Proof. rewrite cip22_ok. intros (i & _ & _ & (out & _ & _ & Hg) & _). apply (gives_subgroup out), Hg. Qed.
End Hash.

(** ** both square root functions exist *)
Definition search_sqrt {K} (kmul : K -> K -> K) (keqb : K -> K -> bool) (all : list K) (a : K) : option K :=
  find (fun y => keqb (kmul y y) a) all.
Lemma search_sqrt_spec {K} (kmul : K -> K -> K) keqb all :
  (forall x y, keqb x y = true <-> x = y) -> (forall x : K, In x all) -> sqrt_spec kmul (search_sqrt kmul keqb all).
Proof.
  intros Hk Ha a. unfold search_sqrt. destruct (find _ all) as [y|] eqn:F.
  - apply find_some in F. apply Hk, F.
  - intros y Hy. apply (find_none _ _ F y) in Hy as _ || idtac. pose proof (find_none _ _ F y (Ha y)) as H. cbn beta in H.
    apply Hk in Hy. congruence.
Qed.
Definition all_fq : list fq := map (fun n => fq_of (Z.of_nat n)) (seq 0 (Z.to_nat p)).
Lemma all_fq_in x : In x all_fq.
Proof.
  unfold all_fq. apply in_map_iff. exists (Z.to_nat (fqv x)). pose proof (fqv_range x). split.
  - apply fq_ext. rewrite Z2Nat.id, fqv_of by lia. apply fqv_mod.
  - apply in_seq. split; [apply Nat.le_0_l|]. cbn [Nat.add]. apply Z2Nat.inj_lt; lia.
Qed.
Definition fq_sqrt : fq -> option fq := search_sqrt qmul qeqb all_fq.
Definition fq2_sqrt : fq2 -> option fq2 := search_sqrt q2mul q2eqb (list_prod all_fq all_fq).
Lemma fq_sqrt_ok : sqrt_spec qmul fq_sqrt. Proof. apply search_sqrt_spec; [apply qeqb_spec|apply all_fq_in]. Qed.
Lemma fq2_sqrt_ok : sqrt_spec q2mul fq2_sqrt.
Proof. apply search_sqrt_spec; [apply q2eqb_spec|]. intros [x y]. apply in_prod; apply all_fq_in. Qed.

(** ** flipping the sign *)
Lemma flip_bits v k : 0 <= k -> Z.testbit (Z.lxor v (2 ^ k)) k = negb (Z.testbit v k) /\
  forall j, 0 <= j -> j <> k -> Z.testbit (Z.lxor v (2 ^ k)) j = Z.testbit v j.
Proof.
  intros Hk. split.
  - rewrite Z.lxor_spec, Z.pow2_bits_true by lia. apply xorb_true_r.
  - intros j Hj Hn. rewrite Z.lxor_spec, Z.pow2_bits_false by lia. apply xorb_false_r.
Qed.
Lemma flip_mod v k n : 0 <= n <= k -> Z.lxor v (2 ^ k) mod 2 ^ n = v mod 2 ^ n.
Proof.
  intros H. apply Z.bits_inj'. intros j Hj. destruct (Z.lt_ge_cases j n) as [Hlt|Hge].
  - rewrite !Z.mod_pow2_bits_low by lia. apply (flip_bits v k); lia.
  - rewrite !Z.mod_pow2_bits_high by lia. reflexivity.
Qed.
Lemma flip_div v k m n : 0 <= m -> 0 <= n -> m + n <= k ->
  (Z.lxor v (2 ^ k) / 2 ^ m) mod 2 ^ n = (v / 2 ^ m) mod 2 ^ n.
Proof.
  intros Hm Hn H. apply Z.bits_inj'. intros j Hj. destruct (Z.lt_ge_cases j n) as [Hlt|Hge].
  - rewrite !Z.mod_pow2_bits_low by lia. rewrite <- !Z.shiftr_div_pow2, !Z.shiftr_spec by lia. apply (flip_bits v k); lia.
  - rewrite !Z.mod_pow2_bits_high by lia. reflexivity.
Qed.
Lemma q_opp_opp y : qopp (qopp y) = y.
Proof. apply (opp_opp fq q0 q1 qadd qmul qsub qopp qdiv qinv fq_field). Qed.
Lemma q2_opp_opp y : q2opp (q2opp y) = y.
Proof. unfold q2opp. cbn [fst snd]. rewrite !q_opp_opp. destruct y; reflexivity. Qed.
Add Field FQ2 : fq2_field.
Add Field FQ1 : fq_field.
Lemma denotes_g1_flip v P : denotes_g1 383 v P -> denotes_g1 383 (Z.lxor v (2 ^ 383)) (g1_neg P).
Proof.
  unfold denotes_g1. destruct (flip_bits v 383 ltac:(lia)) as [B0 B1]. rewrite flip_mod, B0, (B1 382) by lia. cbv zeta.
  destruct P as [[X Y]|]; cbn [g1_neg ec_neg]; [|tauto]. intros (H0 & H1 & H2 & H3 & H4).
  split; [exact H0|]. split; [exact H1|]. split; [exact H2|]. split; [rewrite <- H3; ring|].
  rewrite q_opp_opp. destruct (Z.testbit v 383); exact H4.
Qed.
Lemma denotes_g2_flip v P : denotes_g2 767 v P -> denotes_g2 767 (Z.lxor v (2 ^ 767)) (g2_neg P).
Proof.
  unfold denotes_g2. destruct (flip_bits v 767 ltac:(lia)) as [B0 B1]. rewrite flip_mod, flip_div, B0, (B1 766) by lia. cbv zeta.
  destruct P as [[X Y]|]; cbn [g2_neg ec_neg]; [|tauto]. intros (H0 & H1 & H2 & H3 & H4 & H5 & H6).
  split; [exact H0|]. split; [exact H1|]. split; [exact H2|]. split; [exact H3|]. split; [exact H4|].
  split; [rewrite <- H5; ring|]. rewrite q2_opp_opp. destruct (Z.testbit v 767); exact H6.
Qed.

(** ** the direct hasher returns bytes *)
Lemma direct_bytes : bytes_hasher direct_hasher.
Proof.
  intros d m n out. split.
  - cbn [crh direct_hasher]. unfold direct_crh, run_params. destruct (params_ok _); [|discriminate]. injection 1 as <-. apply blake2s_is_bytes.
  - cbn [xof direct_hasher]. unfold direct_xof. destruct (_ <? _); [discriminate|].
    set (l := seq 0 _). clearbody l. intros H.
    assert (G : forall l' , mapM (fun i => run_params (xof_params d (Z.of_nat i) n) m) l = Ok l' -> is_bytes (concat l') = true).
    { clear H. induction l as [|i l IH]; intros l'; cbn [mapM]; [injection 1 as <-; reflexivity|].
      unfold run_params at 1. destruct (params_ok _); cbn [rbind]; [|discriminate].
      destruct (mapM _ l) as [ys|x|]; cbn [rbind]; try discriminate. injection 1 as <-.
      cbn [concat]. rewrite is_bytes_app, blake2s_is_bytes. apply IH. reflexivity. }
    destruct (mapM _ l) as [l'|x|]; cbn [rbind] in H; try discriminate. injection H as <-. apply G. reflexivity.
Qed.
Lemma composite_bytes pedersen : (forall m out, pedersen m = Ok out -> is_bytes out = true) -> bytes_hasher (composite_hasher pedersen).
Proof.
  intros Hp d m n out. split; [apply Hp|]. apply (direct_bytes d m n out).
Qed.

(** ** message and extra data *)
Section Separation.
  Context {K : Type} (E : grp) (of_point : apoint K -> E) (cofactor : Z) (num_bytes : nat)
          (decode : bytes -> option (apoint K)) (compat : bool) (h : HasherModel.hasher).
  Lemma same_concat d m x m' x' : x ++ m = x' ++ m' ->
    hash_with_attempt E of_point cofactor num_bytes decode compat h d m x =
    hash_with_attempt E of_point cofactor num_bytes decode compat h d m' x'.
  Proof. intros H. unfold hash_with_attempt, try_plain. rewrite H. reflexivity. Qed.
End Separation.
Lemma cip22_input_inj (c c' : Z) (x x' i i' : bytes) : length i = length i' ->
  [c] ++ x ++ i = [c'] ++ x' ++ i' -> c = c' /\ x = x' /\ i = i'.
Proof.
  intros Hl H. cbn [app] in H. injection H as -> H. split; [reflexivity|]. apply app_inj_len; [|exact H].
  apply (f_equal (@length byte)) in H. rewrite !app_length in H. lia.
Qed.

Section Drop.
  Context {K : Type} (E : grp) (of_point : apoint K -> E) (cofactor : Z) (num_bytes : nat)
          (decode : bytes -> option (apoint K)) (compat : bool) (h : HasherModel.hasher).
  Lemma drop_iff (x : result (E * Z)) P : rbind x (fun res => Ok (fst res)) = Ok P <-> exists c, x = Ok (P, c).
  Proof.
    destruct x as [[Q c]|e|]; cbn [rbind fst].
    - split; [injection 1 as ->; exists c; reflexivity|intros (c' & H); injection H as -> _; reflexivity].
    - split; [discriminate|intros (c & H); discriminate].
    - split; [discriminate|intros (c & H); discriminate].
  Qed.
End Drop.
Definition hash_drops_counter := @drop_iff.
Lemma plain_concat compat h E of_point cofactor sqrt d m x m' x' : x ++ m = x' ++ m' ->
  g1_hash compat h E of_point cofactor sqrt d m x = g1_hash compat h E of_point cofactor sqrt d m' x'.
Proof. intros H. unfold g1_hash, hash_to_curve. rewrite (same_concat _ _ _ _ _ _ _ _ _ _ _ _ H). reflexivity. Qed.
Lemma plain_reuse (pr : pairing) compat h (E : grp) of_point cofactor sqrt (to_G1 : E -> G1 pr) m x m' x' sk :
  x ++ m = x' ++ m' ->
  let hg d m x := rbind (g1_hash compat h E of_point cofactor sqrt d m x) (fun P => Ok (to_G1 P)) in
  outcome (sign hg sk m x) = outcome (sign hg sk m' x') /\
  forall pk sig, outcome (verify hg pk m x sig) = outcome (verify hg pk m' x' sig).
Proof.
  intros H hg. assert (Hh : forall d, hg d m x = hg d m' x') by (intros d; unfold hg; rewrite (plain_concat _ _ _ _ _ _ _ _ _ _ _ H); reflexivity).
  assert (Hd : forall d {B} (k : G1 pr -> run B), outcome (bind (do_hash hg d m x) k) = outcome (bind (do_hash hg d m' x') k)).
  { intros d B k. unfold do_hash, bind. rewrite Hh. destruct (hg d m' x') as [P|e|]; [|reflexivity|reflexivity].
    destruct (k P) as [q y]. reflexivity. }
  split; [apply Hd|]. intros pk sig. apply Hd.
Qed.
Lemma cip22_inputs (h : HasherModel.hasher) width d m x i d' m' x' i' (c c' : Z) :
  (forall d m n i, crh h d m n = Ok i -> length i = width) ->
  crh h d m 64 = Ok i -> crh h d' m' 64 = Ok i' ->
  [c] ++ x ++ i = [c'] ++ x' ++ i' -> c = c' /\ x = x' /\ i = i'.
Proof. intros W H H'. apply cip22_input_inj. rewrite (W _ _ _ _ H), (W _ _ _ _ H'). reflexivity. Qed.
Lemma direct_crh_width d m n i : crh direct_hasher d m n = Ok i -> length i = 32%nat.
Proof.
  cbn [crh direct_hasher]. unfold direct_crh, run_params. destruct (params_ok _); [|discriminate]. injection 1 as <-.
  assert (H : Z.of_nat (length (blake2s (param_block (crh_params d n)) m)) = nth 0 (param_block (crh_params d n)) 0).
  { apply blake2s_length. cbn. lia. }
  change (nth 0 (param_block (crh_params d n)) 0) with 32 in H. lia.
Qed.
Lemma cip22_digest_only compat h E of_point cofactor sqrt d m m' x :
  crh h d m 64 = crh h d m' 64 ->
  g1_hash_cip22 compat h E of_point cofactor sqrt d m x = g1_hash_cip22 compat h E of_point cofactor sqrt d m' x.
Proof.
  intros H. unfold g1_hash_cip22, hash_to_curve_cip22, hash_with_attempt_cip22. change (hash_bytes G1_BYTES) with 64.
  rewrite H. reflexivity.
Qed.
Lemma g1_decode_on sqrt l P : sqrt_spec qmul sqrt -> length l = 48%nat -> is_bytes l = true ->
  g1_from_random_bytes sqrt l = Some P -> on_g1 P = true.
Proof.
  intros Hs Hl Hb H. apply (g1_decode_iff sqrt) in H; try assumption. destruct P as [[X Y]|]; [|reflexivity].
  destruct H as (_ & _ & _ & H & _). unfold on_g1, on_curve. apply qeqb_spec. exact H.
Qed.
Lemma g2_decode_on sqrt l P : sqrt_spec q2mul sqrt -> length l = 96%nat -> is_bytes l = true ->
  g2_from_random_bytes sqrt l = Some P -> on_twist P = true.
Proof.
  intros Hs Hl Hb H. apply (g2_decode_iff sqrt) in H; try assumption. destruct P as [[X Y]|]; [|reflexivity].
  destruct H as (_ & _ & _ & _ & _ & H & _). apply on_twist_spec. exact H.
Qed.
Lemma flags_codec : (forall f, ysf_from_u8 (ysf_u8_bitmask f) = Some f) /\
  (forall b, exists f, ysf_from_u8 b = Some f /\ ysf_is_infinity f = Z.testbit b 6 /\ ysf_is_positive f = Some (Z.testbit b 7)) /\
  (forall f, 0 <= ysf_u8_bitmask f < 256 /\ Z.land (ysf_u8_bitmask f) 63 = 0) /\
  (forall b, ysf_is_positive (from_y_sign b) = Some b /\ ysf_is_infinity (from_y_sign b) = false) /\
  (forall b, Z.lor b (ysf_u8_bitmask ysf_default) = b).
Proof.
  split; [exact ysf_round_trip|]. split.
  - intros b. rewrite ysf_from_u8_bits. eexists. split; [reflexivity|]. apply flags_cases.
  - split; [intros [[|]|[|]]; vm_compute; repeat split; congruence|].
    split; [intros [|]; split; reflexivity|]. intros b. apply Z.lor_0_r.
Qed.
