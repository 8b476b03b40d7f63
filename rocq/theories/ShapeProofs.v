(** Proofs for C63. *)
From Verif Require Import Base Constants Group Instances Field Curve BitsModel BitsProofs EncodingModel EncodingProofs Blake2 HasherModel HasherProofs PointModel HashCurveModel
  Circuit CircuitFacts GadgetModel HashGadgetModel HashGadgetProofs EpochCircuitModel EpochProofs ProverModel HelperModel HelperProofs SetupModel ShapeSpec.
Local Open Scope circ_scope.

(** ** Same constraints *)
Lemma same_refl {A} (c : circ A) : same c c.
Proof. induction c; constructor; auto. Qed.
Lemma same_sym {A} (c c' : circ A) : same c c' -> same c' c.
Proof. induction 1; constructor; auto. Qed.
Lemma same_holds {A} (c c' : circ A) : same c c' -> forall x, holds c x <-> holds c' x.
Proof.
  induction 1 as [a|T h h' k k' _ IH|b k k' _ IH|er]; intros x; cbn [holds]; try tauto.
  - split; intros (v & H); exists v; apply IH; exact H.
  - rewrite IH. tauto.
Qed.
Lemma same_bind {A B} (c c' : circ A) (f f' : A -> circ B) : same c c' -> (forall a, same (f a) (f' a)) -> same (cbind c f) (cbind c' f').
Proof. intros H Hf. induction H; cbn [cbind]; try constructor; auto. Qed.
Lemma same_wit {T} (h h' : synth T) : same (witness h) (witness h').
Proof. constructor. intros v. constructor. Qed.
Lemma same_cmap {A A' B} (f : A -> circ B) (f' : A' -> circ B) l l' : Forall2 (fun x y => same (f x) (f' y)) l l' -> same (cmap f l) (cmap f' l').
Proof. induction 1; cbn [cmap]; [constructor|]. apply same_bind; [assumption|]. intros b. apply same_bind; [assumption|]. intros bs. constructor. Qed.
Lemma forall2_any {A B} (R : A -> B -> Prop) l l' : length l = length l' -> (forall x y, R x y) -> Forall2 R l l'.
Proof. revert l'. induction l as [|a l IH]; intros [|b l'] H Hr; try discriminate H; constructor; auto. Qed.
Lemma same_new_bool h h' : same (new_bool h) (new_bool h').
Proof. constructor. intros v. apply same_refl. Qed.
Ltac sb := apply same_bind; [try apply same_wit; try apply same_refl|intros].

Section Same.
  Context {E1 E2 GT : grp} (e : E1 -> E2 -> GT) (gen1 : E1) (gen2 : E2).
  Context (of1 : apoint fq -> E1) (of2 : apoint fq2 -> E2) (to1 : E1 -> apoint fq) (to2 : E2 -> apoint fq2).
  Context (sqrt : fq -> option fq) (ped : bytes -> option fq) (compat pin debug : bool).
  Context {H : Type} (helper_verify : H -> list (list bool) -> bool).

  Lemma same_alloc2 h h' : same (alloc_g2 pin h) (alloc_g2 pin h').
  Proof. unfold alloc_g2, alloc_point. sb. apply same_refl. Qed.
  Lemma same_alloc1 h h' : same (alloc_g1 pin h) (alloc_g1 pin h').
  Proof. unfold alloc_g1, alloc_point. sb. apply same_refl. Qed.
  Lemma same_key k k' : same (key_var of2 to2 pin k) (key_var of2 to2 pin k').
  Proof. unfold key_var. apply same_bind; [apply same_alloc2|]. intros t. apply same_refl. Qed.
  Lemma same_to_bits d d' : length (ed_keys d) = length (ed_keys d') -> same (to_bits of2 to2 pin d) (to_bits of2 to2 pin d').
  Proof.
    intros L. unfold to_bits, bytes_to_fr. sb. sb. sb. sb. sb. apply same_bind; [|intros; apply same_refl].
    apply same_cmap, forall2_any; [exact L|]. intros. apply same_key.
  Qed.
  Lemma same_update u u' c eb n cst : length (ed_keys (su_data u)) = length (ed_keys (su_data u')) -> length (su_bitmap u) = length (su_bitmap u') ->
    same (constrain_update gen2 of1 of2 to2 sqrt ped compat pin debug u c eb n cst) (constrain_update gen2 of1 of2 to2 sqrt ped compat pin debug u' c eb n cst).
  Proof.
    intros L B. unfold constrain_update. rewrite L. destruct (negb _); [apply same_refl|]. apply same_bind.
    - unfold constrain_data. apply same_bind; [apply same_to_bits, L|]. intros v. apply same_refl.
    - intros [v [[mh crh] xof]]. apply same_bind; [apply same_refl|]. intros z. apply same_bind; [apply same_refl|]. intros [].
      apply same_bind; [|intros; apply same_refl]. unfold constrain_bool. apply same_cmap, forall2_any; [exact B|]. intros. apply same_new_bool.
  Qed.
  Lemma same_loop us : forall us' c eb n cst,
    map (fun u : single_update E2 => (length (ed_keys (su_data u)), length (su_bitmap u))) us = map (fun u : single_update E2 => (length (ed_keys (su_data u)), length (su_bitmap u))) us' ->
    same (epochs_loop gen1 gen2 of1 of2 to2 sqrt ped compat pin debug us c eb n cst) (epochs_loop gen1 gen2 of1 of2 to2 sqrt ped compat pin debug us' c eb n cst).
  Proof.
    induction us as [|u us IH]; intros [|u' us'] c eb n cst M; try discriminate M; [apply same_refl|].
    cbn [map] in M. injection M as L B M. cbn [epochs_loop]. apply same_bind; [apply same_update; assumption|].
    intros [[v [[mh crh] xof]] agg]. apply same_bind; [apply same_refl|]. intros z. apply same_bind; [apply same_refl|]. intros apk.
    apply same_bind; [apply same_refl|]. intros h.
    assert (X : match us with [] => true | _ => false end = match us' with [] => true | _ => false end) by (destruct us, us'; try discriminate M; reflexivity).
    apply same_bind.
    - destruct us, us'; try discriminate X; apply same_refl.
    - intros last. apply same_bind; [apply IH, M|]. intros [[[[la crhs] xofs] apks] hs]. destruct us, us'; try discriminate X; apply same_refl.
  Qed.
  Lemma same_circuit (w w' : validator_set_update E1 E2 H) : dims w = dims w' ->
    same (generate_constraints e gen1 gen2 of1 of2 to1 to2 sqrt ped compat pin debug helper_verify w)
         (generate_constraints e gen1 gen2 of1 of2 to1 to2 sqrt ped compat pin debug helper_verify w').
  Proof.
    intros D. assert (D1 := f_equal dim_initial D). assert (D2 := f_equal dim_validators D). assert (D3 := f_equal dim_epochs D). assert (D4 := f_equal dim_helper D).
    cbn [dims dim_initial dim_validators dim_epochs dim_helper] in *. clear D.
    unfold generate_constraints. apply same_bind.
    - unfold enforce_epochs. apply same_bind; [apply same_to_bits, D1|]. intros v0. apply same_bind.
      + unfold verify_intermediate_epochs. apply same_bind; [apply same_refl|]. intros z. rewrite D2.
        replace (match vsu_helper w with Some _ => false | None => true end) with (match vsu_helper w' with Some _ => false | None => true end)
          by (destruct (vsu_helper w), (vsu_helper w'); try discriminate D4; reflexivity).
        apply same_loop, D3.
      + intros [[[[la crhs] xofs] apks] hs]. apply same_bind; [|intros; apply same_refl]. unfold verify_signature. apply same_bind; [apply same_alloc1|]. intros t. apply same_refl.
    - intros b. unfold verify_bits. apply same_bind; [|intros; apply same_refl].
      destruct (vsu_helper w) as [h|], (vsu_helper w') as [h'|]; try discriminate D4; [|apply same_refl].
      unfold verify_proof. apply same_bind; [apply same_wit|]. intros. constructor.
  Qed.
End Same.

Lemma same_helper s s' : map (@length (option bool)) s = map (@length _) s' -> same (hash_to_bits_circuit s) (hash_to_bits_circuit s').
Proof.
  intros M. unfold hash_to_bits_circuit. apply same_bind; [|intros; apply same_refl]. apply same_cmap.
  revert s' M. induction s as [|o s IH]; intros [|o' s'] M; try discriminate M; constructor; injection M as L M; [|apply IH, M].
  apply same_bind; [|intros; apply same_refl]. unfold constrain_bool_fr. apply same_cmap, forall2_any; [exact L|]. intros. constructor. intros. apply same_refl.
Qed.

(** ** The same layout under all assignments *)
Inductive alike {A B} (R : A -> B -> Prop) : circ A -> circ B -> Prop :=
| al_ret a b : R a b -> alike R (Ret a) (Ret b)
| al_wit T (h h' : synth T) k k' : (forall v v', alike R (k v) (k' v')) -> alike R (Witness h k) (Witness h' k')
| al_enf b b' k k' : alike R k k' -> alike R (Enforce b k) (Enforce b' k')
| al_stop er : alike R (Stop er) (Stop er).
Lemma alike_layout {A} (R : A -> A -> Prop) c c' : alike R c c' -> same_layout R c c'.
Proof.
  unfold same_layout. induction 1 as [a b Hr|T h h' k k' _ IH|b b' k k' _ IH|er]; intros l l' x x'; cbn [pass].
  - intros [-> ->] [-> ->]. split; [reflexivity|exact Hr].
  - intros (m & v & -> & P) (m' & v' & -> & P'). destruct (IH v v' m m' x x' P P') as [-> E]. auto.
  - intros (m & -> & P) (m' & -> & P'). destruct (IH m m' x x' P P') as [-> E]. auto.
  - intros [-> ->] [-> ->]. split; [reflexivity|]. destruct er as [[]|er|]; cbn; auto.
Qed.
Lemma al_bind {A A' B B'} (R : A -> A' -> Prop) (S : B -> B' -> Prop) c c' f f' :
  alike R c c' -> (forall a a', R a a' -> alike S (f a) (f' a')) -> alike S (cbind c f) (cbind c' f').
Proof. intros H Hf. induction H; cbn [cbind]; try constructor; auto. Qed.
Lemma al_witness {T} (R : T -> T -> Prop) h h' : (forall v v', R v v') -> alike R (witness h) (witness h').
Proof. intros. constructor. intros. constructor. auto. Qed.
Lemma al_enforce b b' : alike (fun _ _ => True) (enforce b) (enforce b').
Proof. constructor. constructor. exact I. Qed.
Lemma al_weaken {A B} (R S : A -> B -> Prop) c c' : (forall a b, R a b -> S a b) -> alike R c c' -> alike S c c'.
Proof. intros HS. induction 1; constructor; auto. Qed.
Lemma al_new_bool h h' : alike (fun _ _ => True) (new_bool h) (new_bool h').
Proof. constructor. intros. constructor. constructor. exact I. Qed.
Lemma al_cmap {A A' B B'} (R : B -> B' -> Prop) (f : A -> circ B) (f' : A' -> circ B') l l' :
  Forall2 (fun x y => alike R (f x) (f' y)) l l' -> alike (Forall2 R) (cmap f l) (cmap f' l').
Proof.
  induction 1; cbn [cmap]; [constructor; constructor|]. eapply al_bind; [eassumption|]. intros a a' Ra. eapply al_bind; [eassumption|].
  intros s s' Rs. constructor. constructor; assumption.
Qed.
Lemma al_ceach {A A'} (f : A -> circ unit) (f' : A' -> circ unit) l l' : Forall2 (fun x y => alike (fun _ _ => True) (f x) (f' y)) l l' ->
  alike (fun _ _ => True) (ceach f l) (ceach f' l').
Proof. induction 1; cbn [ceach]; [constructor; exact I|]. eapply al_bind; [eassumption|]. intros. assumption. Qed.
Definition any {A B} (_ : A) (_ : B) : Prop := True.
Definition len {A B} (a : list A) (b : list B) : Prop := length a = length b.
Lemma any_I {A B} (a : A) (b : B) : any a b. Proof. exact I. Qed.
Ltac ab := apply (al_bind any); [|intros ? ? _].

Lemma al_eq_zero a b : alike any (is_eq_zero (Var a)) (is_eq_zero (Var b)).
Proof. unfold is_eq_zero. ab; [apply al_new_bool|]. ab; [apply al_witness; intros; exact I|]. ab; [apply al_enforce|]. ab; [apply al_enforce|]. constructor. exact I. Qed.
Lemma al_normalize a b : alike any (normalize (Var a)) (normalize (Var b)).
Proof. unfold normalize, enforce_le_half. ab; [apply al_new_bool|]. ab; [apply al_witness; intros; exact I|]. ab; [apply al_enforce|]. ab; [apply al_enforce|]. constructor. exact I. Qed.
Lemma al_y2 a b : alike any (g2_y_to_bit a) (g2_y_to_bit b).
Proof.
  destruct a as [a0 a1], b as [b0 b1]. unfold g2_y_to_bit. ab; [apply al_new_bool|]. ab; [apply al_normalize|]. ab; [apply al_normalize|]. ab; [apply al_eq_zero|].
  ab; [apply al_enforce|]. constructor. exact I.
Qed.
Lemma al_g2_bits X Y X' Y' : alike len (g2_to_bits X Y) (g2_to_bits X' Y').
Proof. unfold g2_to_bits. ab; [apply al_y2|]. constructor. unfold len, to_bits_be. rewrite !app_length, !rev_length, !to_bits_le_length. reflexivity. Qed.
Lemma al_enforce_bits a b a' b' : length a = length a' -> length b = length b' -> alike any (enforce_bits a b) (enforce_bits a' b').
Proof.
  intros L L'. unfold enforce_bits. apply al_ceach, forall2_any; [rewrite !combine_length, L, L'; reflexivity|]. intros [x y] [x' y']. apply al_enforce.
Qed.

Section Layout.
  Context {E1 E2 GT : grp} (e : E1 -> E2 -> GT) (gen1 : E1) (gen2 : E2).
  Context (of1 : apoint fq -> E1) (of2 : apoint fq2 -> E2) (to1 : E1 -> apoint fq) (to2 : E2 -> apoint fq2).
  Context (sqrt : fq -> option fq) (ped : bytes -> option fq) (compat pin debug : bool).
  Context {H : Type} (helper_verify : H -> list (list bool) -> bool).
  Context (PL : by_length ped).

  Lemma al_alloc2 h h' : alike any (alloc_g2 pin h) (alloc_g2 pin h').
  Proof. unfold alloc_g2, alloc_point. ab; [apply al_witness; intros; exact I|]. ab; [apply al_enforce|]. constructor. exact I. Qed.
  Lemma al_alloc1 h h' : alike any (alloc_g1 pin h) (alloc_g1 pin h').
  Proof. unfold alloc_g1, alloc_point. ab; [apply al_witness; intros; exact I|]. ab; [apply al_enforce|]. constructor. exact I. Qed.
  Definition key_alike (a b : E2 * list bool) : Prop := len (snd a) (snd b).
  Lemma al_key k k' : alike key_alike (key_var of2 to2 pin k) (key_var of2 to2 pin k').
  Proof.
    unfold key_var. apply (al_bind any); [apply al_alloc2|]. intros [[X Y] Z] [[X' Y'] Z'] _. apply (al_bind len); [apply al_g2_bits|]. intros b b' L. constructor. exact L.
  Qed.
  Definition vars_alike (v v' : @data_vars E2) : Prop :=
    len (v_bits v) (v_bits v') /\ len (v_extra v) (v_extra v') /\ len (v_first v) (v_first v') /\ len (v_last v) (v_last v') /\
    length (v_keys v) = length (v_keys v').
  Lemma keys_concat (ks ks' : list (E2 * list bool)) : Forall2 key_alike ks ks' -> length (concat (map snd ks)) = length (concat (map snd ks')).
  Proof. induction 1 as [|a b l l' K _ IH]; [reflexivity|]. cbn [map concat]. rewrite !app_length, IH, K. reflexivity. Qed.
  Lemma fr_bits_len x y k : length (fr_to_bits x k) = length (fr_to_bits y k).
  Proof. unfold fr_to_bits. rewrite !firstn_length, !to_bits_le_length. reflexivity. Qed.
  Lemma al_to_bits d d' : length (ed_keys d) = length (ed_keys d') ->
    alike (fun v v' => vars_alike v v' /\ length (v_keys v) = length (ed_keys d)) (to_bits of2 to2 pin d) (to_bits of2 to2 pin d').
  Proof.
    intros L. unfold to_bits, bytes_to_fr. do 5 (apply (al_bind any); [apply al_witness; intros; exact I|intros ? ? _]).
    apply (al_bind (fun ks ks' => Forall2 key_alike ks ks' /\ length ks = length (ed_keys d))).
    - assert (forall l l' : list (option E2), length l = length l' -> alike (fun ks ks' => Forall2 key_alike ks ks' /\ length ks = length l) (cmap (key_var of2 to2 pin) l) (cmap (key_var of2 to2 pin) l')) as K.
      { clear. induction l as [|k l IH]; intros [|k' l'] L; try discriminate L; cbn [cmap]; [constructor; split; [constructor|reflexivity]|].
        eapply al_bind; [apply al_key|]. intros a a' Ka. eapply al_bind; [apply IH; injection L as L; exact L|]. intros s s' [Fs Ls]. constructor. split; [constructor; assumption|cbn; rewrite Ls; reflexivity]. }
      apply K, L.
    - intros ks ks' [F Lk]. constructor. pose proof (keys_concat ks ks' F) as C. pose proof (forall2_len _ _ _ F) as FL. unfold vars_alike, len.
      cbn [v_bits v_extra v_first v_last v_keys]. rewrite !app_length, C, !map_length. repeat (split; [repeat (f_equal; try apply fr_bits_len)|]); [exact FL|exact Lk].
  Qed.
  Lemma al_next p q i j : alike any (enforce_next_epoch p i) (enforce_next_epoch q j).
  Proof. unfold enforce_next_epoch. ab; [apply al_eq_zero|]. apply al_enforce. Qed.

  Lemma al_cmap_len {A A' B B'} (f : A -> circ B) (f' : A' -> circ B') l l' : length l = length l' -> (forall x y, alike any (f x) (f' y)) ->
    alike (fun s s' => length s = length l /\ length s' = length l) (cmap f l) (cmap f' l').
  Proof.
    intros L Hf. revert l' L. induction l as [|a l IH]; intros [|a' l'] L; try discriminate L; cbn [cmap]; [constructor; auto|].
    ab; [apply Hf|]. eapply al_bind; [apply IH; injection L as L; exact L|]. intros s s' [X Y]. constructor. cbn. auto.
  Qed.
  Lemma chunks_lens n : (0 < n)%nat -> forall f f' (l l' : list bool), length l = length l' -> (length l <= f)%nat -> (length l <= f')%nat ->
    map (@length bool) (chunks_fuel f n l) = map (@length bool) (chunks_fuel f' n l').
  Proof.
    intros Hn. induction f as [|f IH]; intros f' l l' L B B'.
    - destruct l; [|cbn in B; lia]. destruct l'; [|discriminate L]. destruct f'; reflexivity.
    - destruct f' as [|f']; [destruct l; [|cbn in B'; lia]; destruct l'; [|discriminate L]; reflexivity|].
      destruct l as [|a l], l' as [|a' l']; try discriminate L; [reflexivity|]. cbn [chunks_fuel map]. f_equal.
      + rewrite !firstn_length, L. reflexivity.
      + apply IH; rewrite ?skipn_length; [rewrite L; reflexivity|cbn [length] in *; lia|cbn [length] in *; lia].
  Qed.
  Lemma chunks_alike n (l l' : list bool) : (0 < n)%nat -> length l = length l' -> map (@length bool) (chunks n l) = map (@length bool) (chunks n l').
  Proof. intros Hn L. unfold chunks. apply chunks_lens; lia. Qed.
  Lemma pack_alike l l' : length l = length l' -> map (@length bool) (pack_u8 l) = map (@length bool) (pack_u8 l').
  Proof.
    intros L. unfold pack_u8. assert (C := chunks_alike 8 (rev l) (rev l') ltac:(lia) ltac:(rewrite !rev_length; exact L)).
    revert C. generalize (chunks 8 (rev l)) (chunks 8 (rev l')). induction l0 as [|a m IH]; intros [|b m'] C; try discriminate C; [reflexivity|].
    cbn [map] in *. injection C as La Lm. f_equal; [rewrite !app_length, !repeat_length, La; reflexivity|apply IH, Lm].
  Qed.
  Lemma concat_len (m m' : list (list bool)) : map (@length bool) m = map (@length bool) m' -> length (concat m) = length (concat m').
  Proof. revert m'. induction m as [|a m IH]; intros [|b m'] E; try discriminate E; [reflexivity|]. injection E as E1' E2'. cbn [concat]. rewrite !app_length, E1', (IH m' E2'). reflexivity. Qed.

  Lemma al_pedersen (m m' : list (list bool)) : map (@length bool) m = map (@length bool) m' -> alike len (pedersen_hash ped m) (pedersen_hash ped m').
  Proof.
    intros L. unfold pedersen_hash. assert (L' : length (map bits_le_val m) = length (map bits_le_val m')) by (apply (f_equal (@length nat)) in L; rewrite !map_length in *; exact L).
    specialize (PL _ _ L'). destruct (ped (map bits_le_val m)) as [x|], (ped (map bits_le_val m')) as [x'|].
    - constructor. unfold len, pad_byte. rewrite !app_length, !to_bits_le_length. reflexivity.
    - destruct PL as [_ K]. discriminate (K eq_refl).
    - destruct PL as [K _]. discriminate (K eq_refl).
    - apply al_stop.
  Qed.
  Lemma al_blake m m' q q' : length m = length m' -> nth 0 (bp_bytes q) 0 = 32 -> nth 0 (bp_bytes q') 0 = 32 ->
    alike (fun a b : list bool => length a = 256%nat /\ length b = 256%nat) (evaluate_blake2s m q) (evaluate_blake2s m' q').
  Proof.
    intros L Q Q'. unfold evaluate_blake2s. rewrite L. destruct (_ =? 0)%nat; [|apply al_stop]. constructor.
    assert (X := blake2s_length (bp_bytes q) (bytes_of_bits m) ltac:(rewrite Q; lia)). assert (X' := blake2s_length (bp_bytes q') (bytes_of_bits m') ltac:(rewrite Q'; lia)).
    rewrite !bits_of_bytes_length. rewrite Q in X. rewrite Q' in X'. split; lia.
  Qed.
  Lemma al_expand m m' : length m = length m' -> alike (fun a b : list bool => length a = 512%nat /\ length b = 512%nat) (hash_to_bits m 512 SIG_DOMAIN true) (hash_to_bits m' 512 SIG_DOMAIN true).
  Proof.
    intros L. unfold hash_to_bits. change (512 mod 256 =? 0) with true. cbv iota. change (Z.to_nat (512 / 256)) with 2%nat. cbn [seq cmap].
    eapply al_bind.
    - eapply al_bind; [apply (al_blake m m'); [exact L|reflexivity|reflexivity]|]. intros a a' [A A']. eapply al_bind.
      + eapply al_bind; [apply (al_blake m m'); [exact L|reflexivity|reflexivity]|]. intros b b' [B B'].
        apply (al_bind (fun s s' : list (list bool) => s = [] /\ s' = [])); [constructor; auto|]. intros s s' [-> ->].
        apply (al_ret (fun s s' : list (list bool) => length (concat s) = 256%nat /\ length (concat s') = 256%nat)). cbn [concat]. rewrite !app_length, B, B'. auto.
      + intros s s' [S S']. apply (al_ret (fun s s' : list (list bool) => length (concat s) = 512%nat /\ length (concat s') = 512%nat)). cbn [concat]. rewrite !app_length, A, A', S, S'. auto.
    - intros s s' X. constructor. exact X.
  Qed.
  Lemma al_hash_to_bits m m' cst : length m = length m' ->
    alike (fun a b : list bool => length a = 512%nat /\ length b = 512%nat) (hash_to_bits m 512 SIG_DOMAIN cst) (hash_to_bits m' 512 SIG_DOMAIN cst).
  Proof.
    intros L. destruct cst; [apply al_expand, L|]. unfold hash_to_bits, bits_le_to_bytes_le. rewrite !bits_be_to_bytes_le_ok. cbn [rbind].
    rewrite !xof_bytes_ok by (vm_compute; lia).
    match goal with |- alike _ (cmap _ (bytes_le_to_bits_le (xof_bytes _ ?x) _)) (cmap _ (bytes_le_to_bits_le (xof_bytes _ ?y) _)) => set (X := x); set (Y := y) end.
    assert (LX : forall x, length (bytes_le_to_bits_le (xof_bytes SIG_DOMAIN x) 512) = 512%nat).
    { intros x. destruct (xof_bytes_len SIG_DOMAIN x ltac:(vm_compute; lia)) as [Lx _].
      pose proof (bits_of_bytes_le (xof_bytes SIG_DOMAIN x)) as B. rewrite Lx in B. change (8 * 64)%nat with 512%nat in B. rewrite <- B, bits_of_bytes_length, Lx. reflexivity. }
    pose proof (al_cmap_len (fun b => new_bool (Val b)) (fun b => new_bool (Val b)) (bytes_le_to_bits_le (xof_bytes SIG_DOMAIN X) 512) (bytes_le_to_bits_le (xof_bytes SIG_DOMAIN Y) 512)
      ltac:(rewrite !LX; reflexivity) ltac:(intros; apply al_new_bool)) as K. rewrite LX in K. exact K.
  Qed.
  Lemma al_hash_to_group x x' : length x = 512%nat -> length x' = 512%nat -> alike any (hash_to_group of1 sqrt compat pin x) (hash_to_group of1 sqrt compat pin x').
  Proof.
    intros L L'. unfold hash_to_group. 
    destruct (nth_error x (SIGN_BIT_POSITION compat)) as [s|] eqn:N; [|apply nth_error_None in N; unfold SIGN_BIT_POSITION in N; destruct compat; lia].
    destruct (nth_error x' (SIGN_BIT_POSITION compat)) as [s'|] eqn:N'; [|apply nth_error_None in N'; unfold SIGN_BIT_POSITION in N'; destruct compat; lia].
    apply (al_bind any); [apply al_alloc1|]. intros [[X Y] Z] [[X' Y'] Z'] _. ab; [apply al_normalize|]. ab.
    - apply al_enforce_bits; [rewrite !to_bits_le_length; reflexivity|rewrite !firstn_length, L, L'; reflexivity].
    - ab; [apply al_enforce|]. constructor. exact I.
  Qed.
  Lemma al_hash_bits b b' x x' cst : length b = length b' -> length x = length x' ->
    alike any (hash_bits_to_g1 of1 sqrt ped compat pin b x cst) (hash_bits_to_g1 of1 sqrt ped compat pin b' x' cst).
  Proof.
    intros L L'. unfold hash_bits_to_g1. eapply al_bind; [unfold new_u8; apply al_cmap_len; [reflexivity|intros; apply al_new_bool]|].
    intros c c' [C C']. unfold enforce_hash_to_group. eapply al_bind; [apply al_pedersen, pack_alike, L|]. intros h h' Lh. eapply al_bind.
    - apply al_hash_to_bits. rewrite !app_length, C, C', Lh, (concat_len _ _ (pack_alike _ _ L')). reflexivity.
    - intros y y' [Y Y']. eapply al_bind; [apply al_hash_to_group; assumption|]. intros g g' _. constructor. exact I.
  Qed.
  Lemma al_constrain_bool l l' : length l = length l' -> alike (fun a b => length a = length l /\ length b = length l) (constrain_bool l) (constrain_bool l').
  Proof. intros L. apply al_cmap_len; [exact L|intros; apply al_new_bool]. Qed.
  Lemma al_aggregate_loop : forall (l l' : list (E2 * bool)) pad a a', length l = length l' -> alike any (aggregate_loop l pad a) (aggregate_loop l' pad a').
  Proof.
    induction l as [|[k b] l IH]; intros [|[k' b'] l'] pad a a' L; try discriminate L; cbn [aggregate_loop]; [constructor; exact I|].
    ab; [apply al_enforce|]. apply IH. injection L as L. exact L.
  Qed.
  Lemma al_bitmap ks ks' bs bs' (m m' : E1) mx mx' : length ks = length ks' -> length bs = length bs' ->
    alike any (enforce_bitmap debug ks bs m mx gen2) (enforce_bitmap debug ks' bs' m' mx' gen2).
  Proof.
    intros L B. unfold enforce_bitmap. ab.
    - unfold enforce_maximum_occurrences_in_bitmap. destruct bs as [|b bs], bs' as [|b' bs']; try discriminate B; [apply al_stop|].
      ab; [apply al_witness; intros; exact I|]. ab; [|apply al_enforce]. unfold enforce_cmp_le, enforce_le_half. ab; [apply al_enforce|]. ab; [apply al_enforce|]. apply al_enforce.
    - ab; [|constructor; exact I]. unfold enforce_aggregated_pubkeys. rewrite L, B. destruct (_ =? _)%nat; [|apply al_stop]. apply al_aggregate_loop. rewrite !combine_length, L, B. reflexivity.
  Qed.
  Definition upd_alike (r r' : @data_vars E2 * (E1 * list bool * list bool) * E2) : Prop := vars_alike (fst (fst r)) (fst (fst r')).
  Lemma al_update u u' c c' eb eb' n cst : length (ed_keys (su_data u)) = length (ed_keys (su_data u')) -> length (su_bitmap u) = length (su_bitmap u') -> length (c_keys c) = length (c_keys c') ->
    alike upd_alike (constrain_update gen2 of1 of2 to2 sqrt ped compat pin debug u c eb n cst) (constrain_update gen2 of1 of2 to2 sqrt ped compat pin debug u' c' eb' n cst).
  Proof.
    intros L B C. unfold constrain_update. rewrite L. destruct (negb _); [apply al_stop|]. apply (al_bind (fun d d' => vars_alike (fst d) (fst d'))).
    - unfold constrain_data. eapply al_bind; [apply al_to_bits, L|]. intros v v' [V _]. ab; [apply al_next|]. destruct V as (V1 & V2 & V3). eapply al_bind; [apply al_hash_bits; assumption|].
      intros h h' _. constructor. cbn [fst]. exact (conj V1 (conj V2 V3)).
    - intros [v [[mh crh] xof]] [v' [[mh' crh'] xof']] V. ab; [apply al_eq_zero|]. ab; [apply al_enforce|]. eapply al_bind; [apply al_constrain_bool, B|]. intros bm bm' [M M'].
      eapply al_bind; [apply al_bitmap; [exact C|congruence]|]. intros [x y] [x' y'] _. constructor. exact V.
  Qed.
  Lemma al_last v v' ks ks' ib ib' : vars_alike v v' -> alike len (last_bits to2 v ks ib) (last_bits to2 v' ks' ib').
  Proof.
    intros V. unfold last_bits. ab; [constructor; exact I|]. ab; [apply al_enforce|]. 
    destruct (match to2 _ with Some c => c | None => _ end) as [x y]. destruct (match to2 _ with Some c => c | None => _ end) as [x' y'].
    eapply al_bind; [apply al_g2_bits|]. intros b b' Lb. ab; [apply al_enforce|]. constructor. unfold len in *. rewrite !app_length, Lb. destruct V as (_ & _ & _ & V & _). rewrite V. reflexivity.
  Qed.
  Definition out_alike (o o' : @loop_output E1 E2) : Prop := length (fst (fst (fst (fst o)))) = length (fst (fst (fst (fst o')))).
  Lemma al_loop us : forall us' c c' eb eb' n cst,
    map (fun u : single_update E2 => (length (ed_keys (su_data u)), length (su_bitmap u))) us = map (fun u : single_update E2 => (length (ed_keys (su_data u)), length (su_bitmap u))) us' ->
    length (c_keys c) = length (c_keys c') ->
    alike out_alike (epochs_loop gen1 gen2 of1 of2 to2 sqrt ped compat pin debug us c eb n cst) (epochs_loop gen1 gen2 of1 of2 to2 sqrt ped compat pin debug us' c' eb' n cst).
  Proof.
    induction us as [|u us IH]; intros [|u' us'] c c' eb eb' n cst M C; try discriminate M; [constructor; reflexivity|].
    cbn [map] in M. injection M as L B M. cbn [epochs_loop]. eapply al_bind; [apply al_update; assumption|].
    intros [[v [[mh crh] xof]] agg] [[v' [[mh' crh'] xof']] agg'] V. unfold upd_alike in V. cbn [fst] in V. ab; [apply al_eq_zero|].
    ab; [unfold prepare_g2; ab; [apply al_enforce|constructor; exact I]|]. ab; [constructor; exact I|].
    assert (X : match us with [] => true | _ => false end = match us' with [] => true | _ => false end) by (destruct us, us'; try discriminate M; reflexivity).
    apply (al_bind len).
    - destruct us, us'; try discriminate X; [|constructor; reflexivity]. apply al_last, V.
    - intros la la' LA. eapply al_bind.
      + apply IH; [exact M|]. cbn [c_keys]. rewrite !map_length, !combine_length, C. destruct V as (_ & _ & _ & _ & ->). reflexivity.
      + intros [[[[l1 l2] l3] l4] l5] [[[[l1' l2'] l3'] l4'] l5'] O. constructor. unfold out_alike in *. cbn [fst] in *. destruct us, us'; try discriminate X; assumption.
  Qed.
  Lemma al_edge l l' : length l = length l' -> alike (fun a b : list bool => length a = 256%nat /\ length b = 256%nat) (edge l) (edge l').
  Proof. intros L. unfold edge. apply al_blake; [|reflexivity|reflexivity]. rewrite !app_length, !repeat_length, !rev_length, L. reflexivity. Qed.
  Lemma al_pack_chunk c c' : length c = length c' -> alike any (pack_chunk c) (pack_chunk c').
  Proof.
    intros L. unfold pack_chunk. apply (al_bind any); [apply al_witness; intros; exact I|]. intros f f' _. rewrite L. destruct (_ <=? _)%nat; [|apply al_stop].
    ab; [|constructor; exact I]. apply al_enforce_bits; [|exact L]. rewrite !skipn_length. unfold to_bits_be. rewrite !rev_length, !to_bits_le_length. reflexivity.
  Qed.
  Lemma al_multipack l l' k : length l = length l' -> alike len (multipack l k) (multipack l' k).
  Proof.
    intros L. unfold multipack. destruct k; [apply al_stop|]. assert (C := chunks_alike (S k) l l' ltac:(lia) L).
    revert C. generalize (chunks (S k) l) (chunks (S k) l'). induction l0 as [|a m IH]; intros [|b m'] C; try discriminate C; cbn [cmap]; [constructor; reflexivity|].
    injection C as Ca Cm. ab; [apply al_pack_chunk, Ca|]. eapply al_bind; [apply IH, Cm|]. intros s s' Ls. constructor. unfold len in *. cbn. rewrite Ls. reflexivity.
  Qed.
  Lemma al_circuit (w w' : validator_set_update E1 E2 H) : dims w = dims w' ->
    alike len (generate_constraints e gen1 gen2 of1 of2 to1 to2 sqrt ped compat pin debug helper_verify w)
         (generate_constraints e gen1 gen2 of1 of2 to1 to2 sqrt ped compat pin debug helper_verify w').
  Proof.
    intros D. assert (D1 := f_equal dim_initial D). assert (D2 := f_equal dim_validators D). assert (D3 := f_equal dim_epochs D). assert (D4 := f_equal dim_helper D).
    cbn [dims dim_initial dim_validators dim_epochs dim_helper] in *. clear D.
    unfold generate_constraints. apply (al_bind (fun b b' => len (b_first b) (b_first b') /\ len (b_last b) (b_last b'))).
    - unfold enforce_epochs. eapply al_bind; [apply al_to_bits, D1|]. intros v0 v0' [V _]. eapply al_bind.
      + unfold verify_intermediate_epochs. ab; [apply al_eq_zero|]. rewrite D2.
        replace (match vsu_helper w with Some _ => false | None => true end) with (match vsu_helper w' with Some _ => false | None => true end)
          by (destruct (vsu_helper w), (vsu_helper w'); try discriminate D4; reflexivity).
        apply al_loop; [exact D3|]. cbn [c_keys]. destruct V as (_ & _ & _ & _ & V). exact V.
      + intros [[[[l1 l2] l3] l4] l5] [[[[l1' l2'] l3'] l4'] l5'] O. ab.
        * unfold verify_signature. ab; [apply al_alloc1|]. unfold batch_verify_prepared. apply (al_bind any).
          { unfold prepare_signature_neg_generator, prepare_g1, prepare_g2. ab; [constructor; exact I|]. ab; [ab; [apply al_enforce|constructor; exact I]|]. constructor. exact I. }
          intros [x y] [x' y'] _. apply al_enforce.
        * constructor. cbn [b_first b_last]. destruct V as (_ & _ & V & _). split; [exact V|exact O].
    - intros b b' [F L]. unfold verify_bits. ab.
      + destruct (vsu_helper w) as [h|], (vsu_helper w') as [h'|]; try discriminate D4; [|constructor; exact I].
        unfold verify_proof. ab; [apply al_witness; intros; exact I|]. constructor. exact I.
      + unfold verify_edges. eapply al_bind; [apply al_edge, F|]. intros d d' [A A']. eapply al_bind; [apply al_edge, L|]. intros f f' [B B']. apply al_multipack. rewrite !app_length, A, A', B, B'. reflexivity.
  Qed.
End Layout.
