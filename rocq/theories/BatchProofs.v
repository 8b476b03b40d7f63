From Coq Require Import Permutation Znumtheory.
From Verif Require Import Base Constants Prime Group BlsModel BlsSpec BlsProofs.
Open Scope Z_scope.

(** ** Exponent size (C10) *)
Lemma byte_count_le_31 n t : byte_count_from_target_batch_size n t <= 31.
Proof. unfold byte_count_from_target_batch_size, fr_size_in_bits. change (253 / 8) with 31. lia. Qed.

Lemma log2_up_usize n : 0 <= n <= usize_max -> 0 <= Z.log2_up n <= 64.
Proof.
  intros H. split; [apply Z.log2_up_nonneg|].
  change 64 with (Z.log2_up (2 ^ 64)). apply Z.log2_up_le_mono. unfold usize_max in H. lia.
Qed.

Lemma byte_count_value n : 0 <= n <= usize_max ->
  let k := byte_count_from_target_batch_size n SECURITY_BOUND in
  16 <= k <= 24 /\ 128 + Z.log2_up n <= 8 * k < 128 + Z.log2_up n + 8.
Proof.
  intros H. pose proof (log2_up_usize n H) as HL.
  unfold byte_count_from_target_batch_size, fr_size_in_bits, SECURITY_BOUND, ark_log2.
  change (253 / 8) with 31. cbn zeta.
  pose proof (Z.div_mod (128 + Z.log2_up n + 7) 8 ltac:(lia)).
  pose proof (Z.mod_pos_bound (128 + Z.log2_up n + 7) 8 ltac:(lia)).
  rewrite Z.min_l by lia. lia.
Qed.

Lemma byte_count_security n : 1 <= n <= usize_max ->
  2 ^ 128 * n <= 2 ^ (8 * byte_count_from_target_batch_size n SECURITY_BOUND).
Proof.
  intros H. destruct (byte_count_value n ltac:(lia)) as [_ [H1 _]]. cbn zeta in H1.
  set (k := byte_count_from_target_batch_size n SECURITY_BOUND) in *.
  assert (Hn : n <= 2 ^ Z.log2_up n).
  { destruct (Z.eq_dec n 1) as [->|]; [cbn; lia|]. apply Z.log2_up_spec; lia. }
  apply Z.le_trans with (2 ^ (128 + Z.log2_up n)).
  - rewrite Z.pow_add_r by (try lia; apply Z.log2_up_nonneg). nia.
  - apply Z.pow_le_mono_r; lia.
Qed.

(** ** Scalars from random bytes *)
Lemma is_bytes_cons b l : is_bytes (b :: l) = true <-> 0 <= b < 256 /\ is_bytes l = true.
Proof.
  unfold is_bytes, is_byte. cbn [forallb]. rewrite !andb_true_iff, Z.leb_le, Z.ltb_lt. tauto.
Qed.
Lemma le_val_bound l : is_bytes l = true -> 0 <= le_val l < 256 ^ Z.of_nat (length l).
Proof.
  induction l as [|b l IH]; intros H; [cbn; lia|].
  apply is_bytes_cons in H. destruct H as [Hb Hl]. specialize (IH Hl).
  cbn [le_val length]. rewrite Nat2Z.inj_succ, Z.pow_succ_r by lia. lia.
Qed.
Lemma le_val_inj l l' : is_bytes l = true -> is_bytes l' = true -> length l = length l' ->
  le_val l = le_val l' -> l = l'.
Proof.
  revert l'. induction l as [|b l IH]; intros [|b' l'] H H' E V; try discriminate; [reflexivity|].
  apply is_bytes_cons in H. apply is_bytes_cons in H'. cbn [le_val] in V.
  assert (b = b') by lia. subst. f_equal. apply IH; try tauto; [cbn in E; lia|lia].
Qed.

Lemma fr_from_random_bytes_small l : is_bytes l = true -> Z.of_nat (length l) <= 31 ->
  fr_from_random_bytes l = Some (le_val l) /\ 0 <= le_val l < r.
Proof.
  intros H Hl. pose proof (le_val_bound l H) as B.
  assert (B' : 256 ^ Z.of_nat (length l) <= 256 ^ 31) by (apply Z.pow_le_mono_r; lia).
  assert (E : 256 ^ 31 < r) by reflexivity. assert (E2 : r < 2 ^ fr_size_in_bits) by reflexivity.
  unfold fr_from_random_bytes. rewrite firstn_all2 by lia.
  rewrite Z.mod_small by lia.
  assert (Hlt : (le_val l <? r) = true) by (apply Z.ltb_lt; lia). rewrite Hlt. split; [reflexivity|lia].
Qed.

Lemma fr_random_inj (x x' : bytes) :
  is_bytes x = true -> is_bytes x' = true -> length x = length x' -> Z.of_nat (length x) <= 31 ->
  fr_from_random_bytes x <> None /\ (fr_from_random_bytes x = fr_from_random_bytes x' -> x = x').
Proof.
  intros H H' E L.
  destruct (fr_from_random_bytes_small x H L) as [E1 _].
  destruct (fr_from_random_bytes_small x' H' ltac:(lia)) as [E2 _].
  rewrite E1, E2. split; [discriminate|]. intros V. apply le_val_inj; [assumption..|congruence].
Qed.

Lemma unwrap_scalars_ok rnd k : k <= 31 ->
  Forall (fun x => is_bytes x = true /\ Z.of_nat (length x) = k) rnd ->
  unwrap_scalars rnd = Ok (map le_val rnd).
Proof.
  intros Hk. induction 1 as [|x l [Hb Hl] F IH]; [reflexivity|].
  cbn [unwrap_scalars map]. destruct (fr_from_random_bytes_small x Hb ltac:(lia)) as [-> _].
  rewrite IH. reflexivity.
Qed.

Section Batch.
Context {pr : pairing}.
Notation G1 := (G1 pr).
Notation G2 := (G2 pr).
Implicit Types (h : hasher pr) (b : batch pr).
Implicit Types (pk : G2) (sig s H : G1) (Hs ss : list G1) (pks : list G2).

(** What [thread_rng] may have written for a batch. *)
Definition draw_for b (rnd : list bytes) : Prop :=
  length rnd = length (entries b) /\
  Forall (fun x => is_bytes x = true /\ Z.of_nat (length x) = exp_size b) rnd.

Definition entry_valid h b (q : G2 * G1) : Prop :=
  valid_in h SIG_DOMAIN (b_message b) (b_extra b) (fst q) (snd q).

Lemma batch_verify_random_unfold h b rnd : draw_for b rnd ->
  batch_verify_random h b rnd =
  verify h (lincomb (map le_val rnd) (map fst (entries b))) (b_message b) (b_extra b)
    (lincomb (map le_val rnd) (map snd (entries b))).
Proof.
  intros [El F]. unfold batch_verify_random.
  rewrite (unwrap_scalars_ok rnd (exp_size b)) by (try assumption; apply byte_count_le_31).
  rewrite !(proj2 (batch_points_spec _ _)) by (rewrite !map_length; assumption). reflexivity.
Qed.

Lemma batch_no_panic h b rnd : draw_for b rnd ->
  h SIG_DOMAIN (b_message b) (b_extra b) <> Panic ->
  outcome (batch_verify_random h b rnd) <> Panic.
Proof.
  intros D Hh. rewrite batch_verify_random_unfold by assumption. unfold verify.
  rewrite verify_sig_outcome. destruct (h _ _ _); [|discriminate|congruence].
  cbn [rbind]. destruct (pairing_is_one _); discriminate.
Qed.

Lemma batch_accepts_iff h b rnd H ss : draw_for b rnd ->
  h SIG_DOMAIN (b_message b) (b_extra b) = Ok H ->
  signatures_on (repeat H (length (map fst (entries b)))) (map fst (entries b)) ss ->
  (outcome (batch_verify_random h b rnd) = Ok tt <->
   lincomb (map le_val rnd) (map snd (entries b)) = lincomb (map le_val rnd) ss).
Proof.
  intros D EH S. rewrite batch_verify_random_unfold by assumption. unfold verify. rewrite verify_sig_iff.
  assert (Hl : length (map le_val rnd) = length (map fst (entries b))).
  { rewrite !map_length. apply D. }
  pose proof (lincomb_valid H _ _ _ Hl S) as V. split.
  - intros [H' [EH' S']]. assert (H' = H) by congruence. subst. eapply signature_on_unique; eassumption.
  - intros E. exists H. split; [assumption|]. rewrite E. assumption.
Qed.

Lemma entries_valid_signatures h b H : h SIG_DOMAIN (b_message b) (b_extra b) = Ok H ->
  forall l, Forall (entry_valid h b) l ->
  signatures_on (repeat H (length (map fst l))) (map fst l) (map snd l).
Proof.
  intros EH l. induction 1 as [|[pk s] l [H' [EH' S]] F IH]; cbn [map length repeat fst snd] in *; constructor.
  - assert (H' = H) by congruence. subst; assumption.
  - assumption.
Qed.

(** C08 *)
Lemma batch_complete h b rnd : draw_for b rnd ->
  is_ok (h SIG_DOMAIN (b_message b) (b_extra b)) = true ->
  Forall (entry_valid h b) (entries b) ->
  outcome (batch_verify_random h b rnd) = Ok tt.
Proof.
  intros D Hok F. destruct (h SIG_DOMAIN (b_message b) (b_extra b)) as [H| |] eqn:EH; try discriminate.
  apply (batch_accepts_iff h b rnd H (map snd (entries b)) D EH); [|reflexivity].
  apply (entries_valid_signatures h b H EH _ F).
Qed.

(** C09: uniqueness *)
Lemma lincomb_app {G : grp} ks1 ks2 (ps1 ps2 : list G) : length ks1 = length ps1 ->
  lincomb (ks1 ++ ks2) (ps1 ++ ps2) = (lincomb ks1 ps1 + lincomb ks2 ps2)%G.
Proof.
  revert ps1. induction ks1 as [|k ks1 IH]; intros [|P ps1] E; try discriminate; cbn [app lincomb].
  - symmetry; apply ga_0_l.
  - rewrite IH by (cbn in E; lia). apply ga_assoc.
Qed.

Lemma one_exponent h b l1 pk sig l2 rnd1 x x' rnd2 :
  entries b = l1 ++ (pk, sig) :: l2 -> length rnd1 = length l1 ->
  ~ entry_valid h b (pk, sig) ->
  draw_for b (rnd1 ++ x :: rnd2) -> draw_for b (rnd1 ++ x' :: rnd2) ->
  outcome (batch_verify_random h b (rnd1 ++ x :: rnd2)) = Ok tt ->
  outcome (batch_verify_random h b (rnd1 ++ x' :: rnd2)) = Ok tt ->
  x = x'.
Proof.
  intros Eb El Hinv D D' A A'.
  destruct (h SIG_DOMAIN (b_message b) (b_extra b)) as [H| |] eqn:EH.
  2,3: exfalso; rewrite batch_verify_random_unfold in A by assumption; unfold verify in A;
       rewrite verify_sig_outcome, EH in A; discriminate.
  destruct (signatures_on_exists (repeat H (length (map fst (entries b)))) (map fst (entries b))
             ltac:(rewrite repeat_length; reflexivity)) as [ss S].
  apply (batch_accepts_iff h b _ H ss D EH S) in A.
  apply (batch_accepts_iff h b _ H ss D' EH S) in A'.
  rewrite Eb in S. rewrite map_app, app_length, repeat_app in S. cbn [map length repeat fst] in S.
  destruct (signatures_on_app_inv _ _ _ _ S) as [p1 [p2 [s1 [s2 [Ep [Ess [S1 S2]]]]]]].
  assert (Elen : length (map fst l1) = length p1 /\ length p1 = length s1).
  { clear -S1. remember (repeat H (length (map fst l1))) as Hs eqn:E.
    assert (EL : length Hs = length (map fst l1)) by (subst; apply repeat_length).
    rewrite <- EL. clear -S1. induction S1; cbn; split; lia. }
  destruct Elen as [L1 L2].
  assert (Epp : p1 = map fst l1 /\ p2 = pk :: map fst l2).
  { clear -Ep L1. revert Ep L1. generalize (map fst l1) as a. generalize (pk :: map fst l2) as c.
    intros c a Ep L1. revert p1 Ep L1. induction a as [|y a IH]; intros [|z p1] Ep L1; try discriminate.
    - cbn in Ep. split; congruence.
    - cbn in *. injection Ep as -> Ep. destruct (IH p1 Ep ltac:(lia)) as [-> ->]. split; reflexivity. }
  destruct Epp as [-> ->]. inversion S2 as [|? ? s0 ? ? s3 Sv S3]; subst.
  rewrite map_length in L2. 
  rewrite Eb, !map_app in A, A'. cbn [map fst snd] in A, A'.
  rewrite !(lincomb_app (map le_val rnd1)) in A, A' by (rewrite !map_length; first [assumption|congruence]).
  cbn [lincomb] in A, A'.
  (* subtract the two equations *)
  set (u := lincomb (map le_val rnd1) (map snd l1)) in *.
  set (u0 := lincomb (map le_val rnd1) s1) in *.
  set (v := lincomb (map le_val rnd2) (map snd l2)) in *.
  set (v0 := lincomb (map le_val rnd2) s3) in *.
  assert (Hd : (sig - s0)%G <> gz).
  { intros E. apply (proj1 (gsub_0 _ _)) in E. subst sig. apply Hinv. exists H. split; assumption. }
  assert (K : smul (le_val x) (sig - s0)%G = smul (le_val x') (sig - s0)%G).
  { assert (F : forall k, (u + (smul k sig + v))%G = (u0 + (smul k s0 + v0))%G ->
                smul k (sig - s0)%G = (u0 + v0 - (u + v))%G).
    { intros k E. rewrite smul_ga, smul_gn. apply (ga_cancel_r (u + v)%G).
      rewrite <- (ga_assoc _ (u0 + v0)%G), gn_l, ga_0_r.
      apply (ga_cancel_r (smul k s0)).
      transitivity (u + (smul k sig + v))%G.
      - rewrite <- !ga_assoc, (ga_comm _ (gn (smul k s0))), <- !ga_assoc, gn_r, ga_0_r.
        rewrite !ga_assoc, (ga_comm _ _ u). reflexivity.
      - rewrite E, <- !ga_assoc, (ga_comm _ v0). reflexivity. }
    rewrite (F _ A), (F _ A'). reflexivity. }
  apply smul_inj_scalar in K; [|apply G1_ord_all|assumption].
  destruct D as [_ D]. destruct D' as [_ D'].
  assert (Hx : is_bytes x = true /\ Z.of_nat (length x) = exp_size b).
  { rewrite Forall_forall in D. apply D. apply in_or_app. right; left; reflexivity. }
  assert (Hx' : is_bytes x' = true /\ Z.of_nat (length x') = exp_size b).
  { rewrite Forall_forall in D'. apply D'. apply in_or_app. right; left; reflexivity. }
  assert (K31 : exp_size b <= 31) by apply byte_count_le_31.
  destruct (fr_from_random_bytes_small x (proj1 Hx) ltac:(lia)) as [_ B].
  destruct (fr_from_random_bytes_small x' (proj1 Hx') ltac:(lia)) as [_ B'].
  rewrite !Z.mod_small in K by assumption.
  apply le_val_inj; [tauto|tauto|lia|assumption].
Qed.
End Batch.

(** ** Counting *)
Section Words.
Context {T : Type} (alpha : list T).
Fixpoint words (n : nat) : list (list T) :=
  match n with O => [[]] | S n' => flat_map (fun w => map (fun a => a :: w) alpha) (words n') end.
Lemma words_length n : length (words n) = (length alpha ^ n)%nat.
Proof.
  induction n as [|n IH]; [reflexivity|]. cbn [words Nat.pow].
  rewrite <- IH. generalize (words n) as ws. induction ws as [|w ws IHw]; cbn [flat_map length].
  - lia.
  - rewrite app_length, map_length, IHw. lia.
Qed.
Lemma in_words n w : length w = n -> (forall a, In a w -> In a alpha) -> In w (words n).
Proof.
  revert w. induction n as [|n IH]; intros [|a w] E H; try discriminate; [left; reflexivity|].
  cbn [words]. apply in_flat_map. exists w. split.
  - apply IH; [cbn in E; lia|]. intros; apply H; right; assumption.
  - apply in_map_iff. exists a. split; [reflexivity|apply H; left; reflexivity].
Qed.
Lemma nodup_words_bound n (L : list (list T)) : NoDup L ->
  (forall w, In w L -> length w = n /\ forall a, In a w -> In a alpha) ->
  (length L <= length alpha ^ n)%nat.
Proof.
  intros Hn H. rewrite <- words_length. apply NoDup_incl_length; [assumption|].
  intros w Hw. destruct (H w Hw). apply in_words; assumption.
Qed.
End Words.

Definition all_bytes : list Z := map Z.of_nat (seq 0 256).
Lemma in_all_bytes b : 0 <= b < 256 -> In b all_bytes.
Proof. intros H. apply in_map_iff. exists (Z.to_nat b). split; [lia|]. apply in_seq. lia. Qed.
Lemma byte_strings_in k x : is_bytes x = true -> length x = k -> In x (words all_bytes k).
Proof.
  intros H E. apply in_words; [assumption|]. intros a Ha. apply in_all_bytes.
  unfold is_bytes in H. rewrite forallb_forall in H. specialize (H a Ha).
  unfold is_byte in H. apply andb_true_iff in H. rewrite Z.leb_le, Z.ltb_lt in H. lia.
Qed.

Section Count.
Context {pr : pairing}.
Implicit Types (h : hasher pr) (b : batch pr).

Lemma NoDup_map_inj_on {A B} (f : A -> B) l : NoDup l ->
  (forall x y, In x l -> In y l -> f x = f y -> x = y) -> NoDup (map f l).
Proof.
  induction 1 as [|x l Hx Hn IH]; intros Hinj; cbn [map]; constructor.
  - rewrite in_map_iff. intros [y [E Hy]]. apply Hx.
    rewrite <- (Hinj y x); [assumption|right; assumption|left; reflexivity|assumption].
  - apply IH. intros; apply Hinj; try right; assumption.
Qed.

Lemma entry_valid_dec h b q : is_ok (h SIG_DOMAIN (b_message b) (b_extra b)) = true ->
  entry_valid h b q \/ ~ entry_valid h b q.
Proof.
  intros Hok. unfold entry_valid. 
  destruct (h SIG_DOMAIN (b_message b) (b_extra b)) as [P| |] eqn:EH; try discriminate.
  destruct (pairing_is_one [(snd q, gn gen2); (P, fst q)]) eqn:Ep.
  - left. exists P. split; [assumption|]. apply pairing_two_iff; assumption.
  - right. intros [P' [EH' S]]. assert (P' = P) by congruence; subst.
    apply pairing_two_iff in S. congruence.
Qed.

Lemma batch_sound_count h b (L : list (list bytes)) :
  ~ Forall (entry_valid h b) (entries b) -> NoDup L ->
  (forall rnd, In rnd L -> draw_for b rnd /\ outcome (batch_verify_random h b rnd) = Ok tt) ->
  Z.of_nat (length L) * 2 ^ (8 * exp_size b) <= 2 ^ (8 * exp_size b * Z.of_nat (length (entries b))).
Proof.
  intros Hnv HN HL.
  destruct L as [|rnd0 L0] eqn:EL.
  { cbn [length Z.of_nat]. rewrite Z.mul_0_l. apply Z.pow_nonneg. lia. }
  rewrite <- EL in *.
  assert (Hok : is_ok (h SIG_DOMAIN (b_message b) (b_extra b)) = true).
  { destruct (HL rnd0) as [D A]; [rewrite EL; left; reflexivity|].
    rewrite batch_verify_random_unfold in A by assumption. unfold verify in A. rewrite verify_sig_outcome in A.
    destruct (h _ _ _); [reflexivity|discriminate|discriminate]. }
  assert (Hex : exists l1 q l2, entries b = l1 ++ q :: l2 /\ ~ entry_valid h b q).
  { apply (Exists_Forall_neg (entry_valid h b) _ (fun q => entry_valid_dec h b q Hok)) in Hnv.
    apply Exists_exists in Hnv. destruct Hnv as [q [Hin Hq]]. apply in_split in Hin.
    destruct Hin as [l1 [l2 E]]. exists l1, q, l2. split; assumption. }
  destruct Hex as [l1 [[pk sig] [l2 [Eb Hinv]]]].
  set (n1 := length l1). set (k := Z.to_nat (exp_size b)).
  assert (Hk0 : 0 <= exp_size b).
  { unfold exp_size, byte_count_from_target_batch_size, SECURITY_BOUND, ark_log2, fr_size_in_bits.
    pose proof (Z.log2_up_nonneg (Z.of_nat (length (entries b)))).
    change (253 / 8) with 31. apply Z.min_glb; [|lia]. apply Z.div_pos; lia. }
  set (f := fun rnd : list bytes => firstn n1 rnd ++ skipn (S n1) rnd).
  assert (Hsplit : forall rnd, In rnd L -> exists x, rnd = firstn n1 rnd ++ x :: skipn (S n1) rnd).
  { intros rnd Hin. destruct (HL rnd Hin) as [[El _] _].
    assert (Hlt : (n1 < length rnd)%nat) by (rewrite El, Eb, app_length; cbn [length]; unfold n1; lia).
    destruct (nth_split rnd [] Hlt) as [a [c [E1 E2]]].
    exists (nth n1 rnd []). rewrite E1 at 1. f_equal.
    - rewrite E1, firstn_app, firstn_all2 by lia. rewrite E2, Nat.sub_diag. cbn. rewrite app_nil_r. reflexivity.
    - f_equal. rewrite E1. rewrite skipn_app. rewrite skipn_all2 by lia.
      rewrite E2. replace (S n1 - n1)%nat with 1%nat by lia. reflexivity. }
  assert (Hbound : (length (map f L) <= length (words all_bytes k) ^ (length (entries b) - 1))%nat).
  { apply nodup_words_bound.
    - apply NoDup_map_inj_on; [assumption|]. intros r1 r2 H1 H2 E.
      destruct (Hsplit r1 H1) as [x1 E1]. destruct (Hsplit r2 H2) as [x2 E2].
      destruct (HL r1 H1) as [D1 A1]. destruct (HL r2 H2) as [D2 A2].
      unfold f in E.
      assert (Hl : forall rr, In rr L -> length (firstn n1 rr) = n1).
      { intros rr Hr. apply firstn_length_le. destruct (HL rr Hr) as [[El _] _].
        rewrite El, Eb, app_length. unfold n1. lia. }
      assert (E' : firstn n1 r1 = firstn n1 r2 /\ skipn (S n1) r1 = skipn (S n1) r2).
      { pose proof (Hl r1 H1) as La. pose proof (Hl r2 H2) as Lb.
        revert E La Lb. generalize (firstn n1 r1) (firstn n1 r2) (skipn (S n1) r1) (skipn (S n1) r2).
        clear. generalize n1 as n. induction n as [|n IH]; intros [|y a] [|z c] u v E La Lb; try discriminate.
        - split; [reflexivity|exact E].
        - cbn in E. injection E as -> E. destruct (IH a c u v E) as [-> ->]; try (cbn in *; lia). split; reflexivity. }
      destruct E' as [Ea Es]. rewrite Ea, Es in E1.
      rewrite E1 in D1, A1. rewrite E2 in D2, A2. 
      assert (Ex : x1 = x2).
      { apply (one_exponent h b l1 pk sig l2 (firstn n1 r2) x1 x2 (skipn (S n1) r2)); try assumption.
        rewrite Hl; [reflexivity|assumption]. }
      subst x2. transitivity (firstn n1 r2 ++ x1 :: skipn (S n1) r2); [exact E1|symmetry; exact E2].
    - intros w Hw. apply in_map_iff in Hw. destruct Hw as [rnd [<- Hin]].
      destruct (HL rnd Hin) as [[El F] _]. unfold f. split.
      + rewrite app_length, firstn_length, skipn_length, El, Eb, app_length. cbn [length]. unfold n1. lia.
      + intros a Ha. assert (Hin' : In a rnd).
        { apply in_app_or in Ha. destruct Ha as [Ha|Ha].
          - rewrite <- (firstn_skipn n1 rnd). apply in_or_app. left; assumption.
          - rewrite <- (firstn_skipn (S n1) rnd). apply in_or_app. right; assumption. }
        rewrite Forall_forall in F. destruct (F a Hin') as [Hb Hlen].
        apply byte_strings_in; [assumption|]. unfold k. lia. }
  rewrite map_length, words_length in Hbound.
  assert (E256 : length all_bytes = 256%nat) by (unfold all_bytes; rewrite map_length; apply seq_length).
  rewrite E256 in Hbound. apply Nat2Z.inj_le in Hbound.
  rewrite !Nat2Z.inj_pow in Hbound. change (Z.of_nat 256) with (2 ^ 8) in Hbound.
  unfold k in Hbound. rewrite Z2Nat.id in Hbound by assumption.
  rewrite <- Z.pow_mul_r in Hbound by lia.
  assert (En : Z.of_nat (length (entries b) - 1) = Z.of_nat (length (entries b)) - 1).
  { rewrite Eb, app_length. cbn [length]. lia. }
  rewrite En in Hbound.
  set (Q := 2 ^ (8 * exp_size b)) in *. set (n := Z.of_nat (length (entries b))) in *.
  assert (Hn : 1 <= n) by (unfold n; rewrite Eb, app_length; cbn [length]; lia).
  assert (HQ : 0 < Q) by (apply Z.pow_pos_nonneg; lia).
  rewrite (Z.pow_mul_r 2 (8 * exp_size b) n) by lia. fold Q.
  replace n with (Z.succ (n - 1)) at 1 by lia. rewrite Z.pow_succ_r by lia.
  rewrite Z.mul_comm. apply Z.mul_le_mono_nonneg_l; [lia|].
  unfold Q. rewrite <- !Z.pow_mul_r by lia.
  rewrite <- Z.pow_mul_r in Hbound by (try apply Z.mul_nonneg_nonneg; lia).
  rewrite <- Z.mul_assoc. exact Hbound.
Qed.

(** ** C11 *)
Lemma verify_each_spec h b :
  outcome (verify_each h b) = Ok tt <-> Forall (entry_valid h b) (entries b).
Proof.
  unfold verify_each, entry_valid. induction (entries b) as [|[pk sig] l IH]; cbn [verify_each_entries].
  - split; [constructor|reflexivity].
  - unfold bind. destruct (verify h pk (b_message b) (b_extra b) sig) as [q [[]|err|]] eqn:Ev.
    + destruct (verify_each_entries _ _ _ l) as [q' o]. cbn [outcome snd] in *. rewrite IH.
      assert (V : valid_in h SIG_DOMAIN (b_message b) (b_extra b) pk sig).
      { apply verify_sig_iff. unfold verify in Ev. rewrite Ev. reflexivity. }
      split; intros F; [constructor; assumption|inversion F; assumption].
    + split; [discriminate|]. intros F. inversion F as [|? ? V _]; subst. apply verify_sig_iff in V.
      unfold verify in Ev. cbn [fst snd] in V. rewrite Ev in V. discriminate.
    + split; [discriminate|]. intros F. inversion F as [|? ? V _]; subst. apply verify_sig_iff in V.
      unfold verify in Ev. cbn [fst snd] in V. rewrite Ev in V. discriminate.
Qed.

Lemma verify_each_first h b l1 pk sig l2 :
  entries b = l1 ++ (pk, sig) :: l2 -> Forall (entry_valid h b) l1 ->
  ~ entry_valid h b (pk, sig) ->
  outcome (verify_each h b) = outcome (verify h pk (b_message b) (b_extra b) sig).
Proof.
  intros Eb F Hn. unfold verify_each. rewrite Eb. clear Eb.
  induction F as [|[pk1 s1] l1' V F IH]; cbn [app verify_each_entries].
  - assert (Hne : outcome (verify h pk (b_message b) (b_extra b) sig) <> Ok tt).
    { intros E. apply Hn. apply verify_sig_iff in E. exact E. }
    unfold bind. destruct (verify h pk _ _ sig) as [q [[]|err|]]; [|reflexivity|reflexivity].
    exfalso. apply Hne. reflexivity.
  - apply verify_sig_iff in V. unfold bind.
    change (verify_sig h (fst (pk1, s1)) SIG_DOMAIN (b_message b) (b_extra b) (snd (pk1, s1)))
      with (verify h pk1 (b_message b) (b_extra b) s1) in V.
    destruct (verify h pk1 _ _ s1) as [q o]. cbn in V. subst o.
    destruct (verify_each_entries _ _ _ _) as [q' o'] eqn:E2. cbn [outcome snd] in *. exact IH.
Qed.
End Count.

(** A batch made by a sequence of [add] calls *)
Lemma batch_built {pr : pairing} m x (l : list (G2 pr * G1 pr)) :
  let b := fold_left (fun b '(pk, sig) => batch_add b pk sig) l (batch_new m x) in entries b = l /\ b_message b = m /\ b_extra b = x.
Proof.
  assert (G : forall l (b0 : batch pr), let b := fold_left (fun b '(pk, sig) => batch_add b pk sig) l b0 in
            entries b = entries b0 ++ l /\ b_message b = b_message b0 /\ b_extra b = b_extra b0).
  { clear l. induction l as [|[pk sig] l IH]; intros b0; cbn [fold_left]; cbv zeta; [rewrite app_nil_r; auto|].
    destruct (IH (batch_add b0 pk sig)) as (A & B & C). rewrite A, B, C. cbn [batch_add entries b_message b_extra]. rewrite <- app_assoc. auto. }
  exact (G l (batch_new m x)).
Qed.
Lemma batch_security {pr : pairing} (h : hasher pr) b (L : list (list bytes)) : Z.of_nat (length (entries b)) <= usize_max ->
  ~ Forall (entry_valid h b) (entries b) -> NoDup L ->
  (forall rnd, In rnd L -> draw_for b rnd /\ outcome (batch_verify_random h b rnd) = Ok tt) ->
  Z.of_nat (length L) * (2 ^ 128 * Z.of_nat (length (entries b))) <= 2 ^ (8 * exp_size b * Z.of_nat (length (entries b))).
Proof.
  intros U NV ND A. assert (N : 1 <= Z.of_nat (length (entries b))).
  { destruct (entries b) eqn:E; [exfalso; apply NV; constructor|cbn [length]; lia]. }
  pose proof (batch_sound_count h b L NV ND A) as C. pose proof (byte_count_security (Z.of_nat (length (entries b))) (conj N U)) as S.
  eapply Z.le_trans; [|exact C]. apply Z.mul_le_mono_nonneg_l; [lia|exact S].
Qed.
