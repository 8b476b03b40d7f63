(** Proofs about the memory handed out and taken back. *)
From Coq Require Import Permutation.
From Verif Require Import Base Group BlsModel CodecModel FfiModel MemoryModel MemorySpec.

Section Proofs.
  Context {SK PK SG : Type}.
  Notation heap := (heap SK PK SG). Notation call := (call SK PK SG). Notation object := (object SK PK SG).
  Notation block := (block SK PK SG).
  Context (address : heap -> layout -> Z) (HA : proper_allocator address).

  Lemma kind_eqb_eq a b : kind_eqb a b = true <-> a = b.
  Proof. destruct a, b; cbn; split; intros H; try reflexivity; discriminate H. Qed.
  Lemma layout_eqb_eq a b : layout_eqb a b = true <-> a = b.
  Proof.
    destruct a as [k|n], b as [k'|n']; cbn; try (split; intros H; discriminate H).
    - rewrite kind_eqb_eq. split; [intros ->; reflexivity|intros H; injection H as ->; reflexivity].
    - rewrite Z.eqb_eq. split; [intros ->; reflexivity|intros H; injection H as ->; reflexivity].
  Qed.
  Lemma layout_eqb_refl a : layout_eqb a a = true. Proof. apply layout_eqb_eq. reflexivity. Qed.
  Lemma layout_eqb_neq a b : a <> b -> layout_eqb a b = false.
  Proof. intros H. destruct (layout_eqb a b) eqn:E; [apply layout_eqb_eq in E; contradiction|reflexivity]. Qed.

  Lemma lookup_in (h : heap) p b : NoDup (map fst h) -> In (p, b) h -> lookup h p = Some b.
  Proof.
    intros N I. unfold lookup. induction h as [|[q c] h IH]; [destruct I|]. inversion N as [|? ? N1 N2]; subst.
    cbn [find fst]. destruct (Z.eqb_spec q p) as [->|Hne].
    - destruct I as [E|I]; [injection E as ->; reflexivity|]. exfalso. apply N1. apply (in_map fst) in I. exact I.
    - destruct I as [E|I]; [injection E as E _; contradiction|]. apply IH; assumption.
  Qed.
  Lemma lookup_some (h : heap) p b : lookup h p = Some b -> In (p, b) h.
  Proof.
    unfold lookup. destruct (find (fun e => fst e =? p) h) as [[q c]|] eqn:E; [|intros H; discriminate H].
    apply find_some in E. destruct E as [I E]. apply Z.eqb_eq in E. cbn in E. subst q. intros H. injection H as ->. exact I.
  Qed.
  Lemma dealloc_split (h1 h2 : heap) p b : NoDup (map fst (h1 ++ (p, b) :: h2)) ->
    dealloc (h1 ++ (p, b) :: h2) p (b_layout b) = Some (h1 ++ h2) /\
    (forall l, l <> b_layout b -> dealloc (h1 ++ (p, b) :: h2) p l = None).
  Proof.
    induction h1 as [|[q c] h1 IH]; intros N; cbn [app dealloc].
    - rewrite Z.eqb_refl, layout_eqb_refl. split; [reflexivity|]. intros l Hl. rewrite layout_eqb_neq by congruence. reflexivity.
    - inversion N as [|? ? N1 N2]; subst. cbn [map fst app] in N1, N2. specialize (IH N2).
      destruct (Z.eqb_spec q p) as [->|Hne].
      + exfalso. apply N1. change (In (fst (p, b)) (map fst (h1 ++ (p, b) :: h2))). apply in_map. apply in_or_app. right. left. reflexivity.
      + destruct IH as [-> IH]. split; [reflexivity|]. intros l Hl. rewrite (IH l Hl). reflexivity.
  Qed.
  Lemma dealloc_absent (h : heap) p l : ~ In p (map fst h) -> dealloc h p l = None.
  Proof.
    induction h as [|[q c] h IH]; [reflexivity|]. cbn [map fst In dealloc]. intros H.
    destruct (Z.eqb_spec q p) as [->|Hne]; [exfalso; apply H; left; reflexivity|]. rewrite IH by tauto. reflexivity.
  Qed.

  (** What one output adds to the heap *)
  Definition blocks (h : heap) (g : give SK PK SG) : heap :=
    match g with
    | GBox o => [(address h (LBox (kind_of o)), Block (LBox (kind_of o)) (Object o))]
    | GVec [] => []
    | GVec l => [(address h (LBytes (Z.of_nat (length l))), Block (LBytes (Z.of_nat (length l))) (Bytes l))]
    | GValue _ => []
    end.
  Definition look (h : heap) (g : give SK PK SG) : written :=
    match g with
    | GBox o => WBox (kind_of o) (address h (LBox (kind_of o)))
    | GVec [] => WVec dangling 0
    | GVec l => WVec (address h (LBytes (Z.of_nat (length l)))) (Z.of_nat (length l))
    | GValue n => WValue n
    end.
  Lemma as_c_int_id n : 0 <= n < 2 ^ 31 -> as_c_int n = n.
  Proof. intros H. unfold as_c_int. rewrite Z.mod_small by lia. lia. Qed.
  Lemma vec_gives (h : heap) l cap : Z.of_nat (length l) <= cap ->
    give_out address h (GVec l, cap) =
    Some (blocks h (GVec l) ++ h, match l with [] => WVec dangling (as_c_int 0)
      | _ => WVec (address h (LBytes (Z.of_nat (length l)))) (as_c_int (Z.of_nat (length l))) end).
  Proof.
    intros H. unfold give_out, vec_with, shrink_to_fit.
    destruct (Z.eqb_spec cap 0) as [->|Hc].
    - destruct l as [|b l]; [|cbn [length] in H; lia]. reflexivity.
    - unfold alloc. cbn [b_layout v_len v_cap v_ptr]. destruct (Z.ltb_spec (Z.of_nat (length l)) cap) as [Hl|Hl].
      + unfold vec_drop. cbn [v_cap v_ptr]. rewrite (proj2 (Z.eqb_neq cap 0)) by exact Hc.
        cbn [dealloc]. rewrite Z.eqb_refl. cbn [b_layout]. rewrite layout_eqb_refl. unfold vec_with, alloc.
        destruct l as [|b l].
        * reflexivity.
        * rewrite (proj2 (Z.eqb_neq (Z.of_nat (length (b :: l))) 0)) by (cbn [length]; lia). reflexivity.
      + assert (E : cap = Z.of_nat (length l)) by lia. destruct l as [|b l]; [cbn [length] in E; lia|]. rewrite E. reflexivity.
  Qed.
  Lemma give_one (h : heap) g : fits g -> give_out address h g = Some (blocks h (fst g) ++ h, look h (fst g)).
  Proof.
    destruct g as [[o|l|n] cap]; intros F; [reflexivity| |reflexivity].
    destruct F as [F1 F2]. rewrite vec_gives by exact F1. destruct l as [|b l]; [reflexivity|].
    cbn [fst look]. rewrite as_c_int_id by lia. reflexivity.
  Qed.

  Definition shape (e : Z * block) : Z * layout := (fst e, b_layout (snd e)).
  Definition sound_block (b : block) : Prop :=
    match b with
    | Block (LBox k) (Object o) => kind_of o = k
    | Block (LBytes n) (Bytes l) => n = Z.of_nat (length l)
    | _ => False
    end.
  Definition sound_handle (x : handle) : Prop :=
    pointer x <> 0 /\ match x with HVec _ n => 0 <= n < 2 ^ 31 | _ => True end.
  Definition inv (h0 h : heap) (held : list handle) : Prop :=
    NoDup (map fst h) /\ Forall sound_handle held /\
    exists hx, Permutation h (hx ++ h0) /\ Permutation (map shape hx) (flat_map footprint held) /\ Forall (fun e => sound_block (snd e)) hx.

  Lemma give_blocks (h : heap) g : fits g -> NoDup (map fst h) ->
    NoDup (map fst (blocks h (fst g) ++ h)) /\ Forall (fun e => sound_block (snd e)) (blocks h (fst g)) /\
    map shape (blocks h (fst g)) = flat_map footprint (handles [look h (fst g)]) /\
    Forall sound_handle (handles [look h (fst g)]) /\ delivered (blocks h (fst g) ++ h) (fst g) (look h (fst g)).
  Proof.
    intros F N. destruct g as [[o|[|b l]|n] cap]; cbn [fst].
    - unfold blocks, look. cbn [app map fst shape snd b_layout handles flat_map footprint].
      destruct (HA h (LBox (kind_of o))) as [A1 A2].
      split; [constructor; assumption|]. split; [constructor; [reflexivity|constructor]|]. split; [reflexivity|].
      split; [constructor; [split; [exact A1|exact I]|constructor]|]. split; [reflexivity|]. split; [exact A1|].
      unfold lookup. cbn [find fst]. rewrite Z.eqb_refl. reflexivity.
    - cbn. split; [exact N|]. split; [constructor|]. split; [reflexivity|]. split; [constructor; [split; cbn; [unfold dangling; lia|lia]|constructor]|].
      split; [reflexivity|]. split; [unfold dangling; lia|left; reflexivity].
    - set (v := b :: l) in *. assert (Hv : blocks h (GVec v) = [(address h (LBytes (Z.of_nat (length v))), Block (LBytes (Z.of_nat (length v))) (Bytes v))]) by reflexivity.
      assert (Hw : look h (GVec v) = WVec (address h (LBytes (Z.of_nat (length v)))) (Z.of_nat (length v))) by reflexivity.
      assert (Hn : 0 < Z.of_nat (length v)) by (subst v; cbn [length]; lia).
      rewrite Hv, Hw. destruct F as [F1 F2]. destruct (HA h (LBytes (Z.of_nat (length v)))) as [A1 A2].
      cbn [app map fst shape snd b_layout handles flat_map footprint]. unfold shape. cbn [fst snd b_layout].
      split; [constructor; assumption|]. split; [constructor; [reflexivity|constructor]|].
      split; [rewrite (proj2 (Z.eqb_neq _ 0)) by lia; reflexivity|].
      split; [constructor; [split; [exact A1|split; [lia|exact F2]]|constructor]|]. split; [reflexivity|]. split; [exact A1|]. right.
      unfold lookup. cbn [find fst]. rewrite Z.eqb_refl. reflexivity.
    - cbn. split; [exact N|]. split; [constructor|]. split; [reflexivity|]. split; [constructor|reflexivity].
  Qed.
  Lemma delivered_mono (h hx : heap) g w : NoDup (map fst (hx ++ h)) -> delivered h g w -> delivered (hx ++ h) g w.
  Proof.
    intros N. assert (L : forall p b, lookup h p = Some b -> lookup (hx ++ h) p = Some b).
    { intros p b Hb. apply lookup_in; [exact N|]. apply in_or_app. right. apply lookup_some. exact Hb. }
    destruct g, w; cbn; intros H; try exact H.
    - destruct H as (H1 & H2 & H3). auto.
    - destruct H as (H1 & H2 & [H3|H3]); auto.
  Qed.
  Lemma give_all_ok gs : forall h : heap, Forall fits gs -> NoDup (map fst h) ->
    exists hx ws, give_all address h gs = Some (hx ++ h, ws) /\ NoDup (map fst (hx ++ h)) /\ Forall (fun e => sound_block (snd e)) hx /\
      Permutation (map shape hx) (flat_map footprint (handles ws)) /\ Forall sound_handle (handles ws) /\
      Forall2 (fun g w => delivered (hx ++ h) (fst g) w) gs ws.
  Proof.
    induction gs as [|g gs IH]; intros h F N.
    - exists [], []. cbn. repeat split; try assumption; constructor.
    - inversion F as [|? ? F1 F2]; subst. cbn [give_all]. rewrite (give_one h g F1).
      destruct (give_blocks h g F1 N) as (B1 & B2 & B3 & B4 & B5).
      destruct (IH (blocks h (fst g) ++ h) F2 B1) as (hx & ws & -> & I1 & I2 & I3 & I4 & I5).
      exists (hx ++ blocks h (fst g)), (look h (fst g) :: ws). rewrite <- app_assoc.
      split; [reflexivity|]. split; [exact I1|]. split; [apply Forall_app; split; assumption|].
      change (look h (fst g) :: ws) with ([look h (fst g)] ++ ws). unfold handles. rewrite flat_map_app. fold (handles [look h (fst g)]). fold (handles ws).
      split.
      + rewrite map_app, flat_map_app, B3. rewrite Permutation_app_comm. apply Permutation_app_head. exact I3.
      + split; [apply Forall_app; split; assumption|]. constructor; [apply delivered_mono; assumption|exact I5].
  Qed.

  (** Handles held point to live blocks *)
  Lemma held_block (h0 h : heap) held x e : inv h0 h held -> In x held -> In e (footprint x) ->
    exists b, In (fst e, b) h /\ b_layout b = snd e /\ sound_block b.
  Proof.
    intros (N & S & hx & P1 & P2 & P3) Hx He.
    assert (I : In e (flat_map footprint held)) by (apply in_flat_map; exists x; split; assumption).
    apply (Permutation_in _ (Permutation_sym P2)) in I. apply in_map_iff in I. destruct I as ([p b] & <- & I).
    exists b. cbn. split; [|split; [reflexivity|]].
    - apply (Permutation_in _ (Permutation_sym P1)). apply in_or_app. left. exact I.
    - apply (proj1 (Forall_forall _ _) P3 _ I).
  Qed.
  Lemma deref_held (h0 h : heap) held args : inv h0 h held -> Forall (fun e => In (HBox (fst e) (snd e)) held) args ->
    exists os, deref h (map snd args) = Some os /\ map kind_of os = map fst args.
  Proof.
    intros HI F. induction F as [|[k p] args H F IH]; [exists []; split; reflexivity|].
    destruct IH as (os & E & K). cbn [fst snd] in H. destruct (held_block h0 h held _ (p, LBox k) HI H ltac:(left; reflexivity)) as ([l c] & Hb & Hl & Hs).
    cbn [b_layout fst snd] in *. subst l. destruct c as [o|bs]; [|destruct Hs]. cbn in Hs.
    exists (o :: os). cbn [map fst snd deref]. rewrite (lookup_in h p _ (proj1 HI) Hb), E, K, Hs. split; reflexivity.
  Qed.
  Lemma inv_perm h0 h held held' : Permutation held held' -> inv h0 h held -> inv h0 h held'.
  Proof.
    intros P (N & S & hx & P1 & P2 & P3). split; [exact N|]. split.
    - apply Forall_forall. intros x Hx. apply (proj1 (Forall_forall _ _) S). apply (Permutation_in _ (Permutation_sym P)). exact Hx.
    - exists hx. split; [exact P1|]. split; [|exact P3]. rewrite P2. apply Permutation_flat_map. exact P.
  Qed.
  (** Giving a held block back *)
  Lemma dealloc_held h0 h x held p l : inv h0 h (x :: held) -> footprint x = [(p, l)] ->
    exists h', dealloc h p l = Some h' /\ inv h0 h' held /\ ~ In p (map fst h') /\
      (forall q, q <> p -> lookup h' q = lookup h q) /\ (forall l', l' <> l -> dealloc h p l' = None).
  Proof.
    intros (N & S & hx & P1 & P2 & P3) Hf. cbn [flat_map] in P2. rewrite Hf in P2. cbn [app] in P2.
    assert (I : In (p, l) (map shape hx)) by (apply (Permutation_in _ (Permutation_sym P2)); left; reflexivity).
    apply in_map_iff in I. destruct I as ([q b] & E & I). unfold shape in E. cbn [fst snd] in E. injection E as -> <-.
    apply in_split in I. destruct I as (x1 & x2 & ->).
    assert (Ih : In (p, b) h). { apply (Permutation_in _ (Permutation_sym P1)). apply in_or_app. left. apply in_or_app. right. left. reflexivity. }
    apply in_split in Ih. destruct Ih as (h1 & h2 & ->). destruct (dealloc_split h1 h2 p b N) as [D1 D2].
    exists (h1 ++ h2). rewrite map_app in N. cbn [map fst] in N. pose proof (NoDup_remove _ _ _ N) as [N1 N2].
    rewrite <- map_app in N1, N2. split; [exact D1|]. split.
    - split; [exact N1|]. split; [inversion S; assumption|]. exists (x1 ++ x2). split.
      + rewrite <- app_assoc in P1. cbn [app] in P1. rewrite <- app_assoc. apply Permutation_app_inv with (a := (p, b)). exact P1.
      + split.
        * rewrite map_app in P2. cbn [map] in P2. rewrite map_app. unfold shape in P2 at 2. cbn [fst snd] in P2.
          apply Permutation_sym. apply Permutation_cons_app_inv with (a := (p, b_layout b)). apply Permutation_sym. exact P2.
        * apply Forall_app in P3. destruct P3 as [P3 P4]. inversion P4; subst. apply Forall_app. split; assumption.
    - split; [exact N2|]. split; [|exact D2]. intros q Hq. unfold lookup. clear - Hq. induction h1 as [|[q' c] h1 IH]; cbn [app find fst].
      + rewrite (proj2 (Z.eqb_neq p q)) by congruence. reflexivity.
      + destruct (q' =? q); [reflexivity|]. exact IH.
  Qed.
  Lemma usize_id n : 0 <= n < 2 ^ 31 -> c_int_as_usize n = n.
  Proof. intros H. unfold c_int_as_usize. apply Z.mod_small. lia. Qed.
  (** Releasing a held handle *)
  Lemma release_held h0 h x held : inv h0 h (x :: held) ->
    exists h', perform address h (ARelease x) = Done h' true [] /\ inv h0 h' held /\
      (forall q, q <> pointer x -> lookup h' q = lookup h q) /\ (footprint x <> [] -> ~ In (pointer x) (map fst h')).
  Proof.
    intros HI. pose proof (proj1 (proj2 HI)) as S. inversion S as [|? ? [Hp Hx] _]; subst.
    destruct x as [k p|p n]; cbn [pointer perform footprint] in *.
    - destruct (dealloc_held h0 h (HBox k p) held p (LBox k) HI eq_refl) as (h' & D & I' & A & L & _).
      exists h'. unfold run_destroy. rewrite (proj2 (Z.eqb_neq p 0)) by exact Hp. rewrite D. repeat split; auto; apply I'.
    - unfold run_free_vec, vec_drop. rewrite (proj2 (Z.eqb_neq p 0)) by exact Hp. rewrite usize_id by exact Hx. cbn [v_cap v_ptr].
      destruct (Z.eqb_spec n 0) as [->|Hn].
      + exists h. split; [reflexivity|]. split.
        * destruct HI as (N & S' & hx & P). split; [exact N|]. split; [inversion S'; assumption|]. exists hx. exact P.
        * split; [reflexivity|]. intros K. exfalso. apply K. reflexivity.
      + destruct (dealloc_held h0 h (HVec p n) held p (LBytes n) HI) as (h' & D & I' & A & L & _).
        { cbn. rewrite (proj2 (Z.eqb_neq n 0)) by exact Hn. reflexivity. }
        exists h'. rewrite D. repeat split; auto; apply I'.
  Qed.
  Lemma in_perm {A} (x : A) l : In x l -> exists l', Permutation l (x :: l').
  Proof. intros H. apply in_split in H. destruct H as (a & b & ->). exists (a ++ b). apply Permutation_sym, Permutation_middle. Qed.

  (** An allowed call *)
  Lemma call_held h0 h held args c : inv h0 h held -> allowed held (ACall args c) ->
    (exists os, deref h (map snd args) = Some os /\ map kind_of os = map fst args /\
      (c os = Some Panics /\ perform address h (ACall args c) = Aborted \/
       (exists b, c os = Some (Returns b None) /\ perform address h (ACall args c) = Done h b []) \/
       (exists b gs hx ws, c os = Some (Returns b (Some gs)) /\ perform address h (ACall args c) = Done (hx ++ h) b ws /\
          NoDup (map fst (hx ++ h)) /\ Forall (fun e => sound_block (snd e)) hx /\
          Permutation (map shape hx) (flat_map footprint (handles ws)) /\ Forall sound_handle (handles ws) /\
          Forall2 (fun g w => delivered (hx ++ h) (fst g) w) gs ws))).
  Proof.
    intros HI (A1 & A2 & A3). destruct (deref_held h0 h held args HI A1) as (os & E & K). exists os. split; [exact E|]. split; [exact K|].
    destruct (A2 os K) as [x Hx]. cbn [perform]. unfold run_call. rewrite E, Hx. destruct x as [b [gs|]|].
    - right. right. destruct (give_all_ok gs h (A3 os b gs Hx) (proj1 HI)) as (hx & ws & G & R). exists b, gs, hx, ws. rewrite G. tauto.
    - right. left. exists b. auto.
    - left. auto.
  Qed.
  Lemma null_step h k n : perform address h (ANull k n) = Done h false [].
  Proof. destruct k; reflexivity. Qed.
  Lemma step_inv h0 s a b s' : inv h0 (fst s) (snd s) -> step address s a b s' -> inv h0 (fst s') (snd s').
  Proof.
    destruct s as [h held], s' as [h' held']. cbn [fst snd]. intros HI (A & ws & P & Q). cbn [fst snd] in A, P, Q. destruct a as [args c|x|k n].
    - cbn [released app] in Q. destruct (call_held h0 h held args c HI A) as (os & _ & _ & [[_ H]|[(b' & _ & H)|(b' & gs & hx & ws' & _ & H & N & SB & SH & HH & _)]]).
      + rewrite H in P. discriminate P.
      + rewrite H in P. injection P as <- _ <-. cbn [handles flat_map] in Q. rewrite app_nil_r in Q. apply (inv_perm h0 h held held'); [apply Permutation_sym; exact Q|exact HI].
      + rewrite H in P. injection P as <- _ <-. destruct HI as (N0 & S0 & h1 & P1 & P2 & P3). apply (inv_perm h0 _ (held ++ handles ws')); [apply Permutation_sym; exact Q|].
        split; [exact N|]. split; [apply Forall_app; split; assumption|]. exists (hx ++ h1). split; [|split].
        * rewrite <- app_assoc. apply Permutation_app_head. exact P1.
        * rewrite map_app, flat_map_app. rewrite Permutation_app_comm. apply Permutation_app; assumption.
        * apply Forall_app. split; assumption.
    - cbn [released app] in Q. cbn [allowed] in A. destruct (in_perm x held A) as [rest Hr].
      destruct (release_held h0 h x rest) as (h2 & D & I2 & _); [apply (inv_perm h0 h held); assumption|].
      rewrite D in P. injection P as <- _ <-. cbn [handles flat_map] in Q. rewrite app_nil_r in Q. apply (inv_perm h0 h2 rest); [|exact I2].
      apply Permutation_cons_inv with (a := x). rewrite <- Hr. apply Permutation_sym. exact Q.
    - rewrite null_step in P. injection P as <- _ <-. cbn [handles flat_map released app] in Q. rewrite app_nil_r in Q.
      apply (inv_perm h0 h held held'); [apply Permutation_sym; exact Q|exact HI].
  Qed.
  Lemma session_inv h0 s : NoDup (map fst h0) -> session address h0 s -> inv h0 (fst s) (snd s).
  Proof.
    intros N H. induction H as [|s a b s' _ IH St].
    - split; [exact N|]. split; [constructor|]. exists []. cbn. repeat split; try apply Permutation_refl; constructor.
    - apply (step_inv h0 s a b s' IH St).
  Qed.

  (** ** The statements *)
  Lemma session_safe h0 h held a : NoDup (map fst h0) -> session address h0 (h, held) -> allowed held a -> perform address h a <> Undefined.
  Proof.
    intros N Hs A. pose proof (session_inv h0 _ N Hs) as HI. cbn [fst snd] in HI. destruct a as [args c|x|k n].
    - destruct (call_held h0 h held args c HI A) as (os & _ & _ & [[_ H]|[(b' & _ & H)|(b' & gs & hx & ws' & _ & H & _)]]); rewrite H; intros K; discriminate K.
    - destruct (in_perm x held A) as [rest Hr]. destruct (release_held h0 h x rest) as (h2 & D & _); [apply (inv_perm h0 h held); assumption|].
      rewrite D. intros K; discriminate K.
    - rewrite null_step. intros K; discriminate K.
  Qed.
  Lemma session_release h0 h held x : NoDup (map fst h0) -> session address h0 (h, held) -> In x held ->
    exists h', perform address h (ARelease x) = Done h' true [].
  Proof.
    intros N Hs A. pose proof (session_inv h0 _ N Hs) as HI. destruct (in_perm x held A) as [rest Hr].
    destruct (release_held h0 h x rest) as (h2 & D & _); [apply (inv_perm h0 h held); assumption|]. exists h2. exact D.
  Qed.
  Lemma session_accounts h0 h held : NoDup (map fst h0) -> session address h0 (h, held) ->
    exists hx, Permutation h (hx ++ h0) /\ Permutation (map (fun e => (fst e, b_layout (snd e))) hx) (flat_map footprint held).
  Proof. intros N Hs. destruct (session_inv h0 _ N Hs) as (_ & _ & hx & P1 & P2 & _). exists hx. split; assumption. Qed.
  Lemma session_no_leak h0 h : NoDup (map fst h0) -> session address h0 (h, []) -> Permutation h h0.
  Proof.
    intros N Hs. destruct (session_accounts h0 h [] N Hs) as (hx & P1 & P2). cbn in P2. apply Permutation_sym, Permutation_nil in P2.
    apply map_eq_nil in P2. subst hx. exact P1.
  Qed.
  Lemma session_frame h0 s a b s' p blk : NoDup (map fst h0) -> session address h0 s -> step address s a b s' ->
    lookup (fst s) p = Some blk -> (forall x, In x (released a) -> pointer x <> p) -> lookup (fst s') p = Some blk.
  Proof.
    intros N Hs St L F. pose proof (session_inv h0 _ N Hs) as HI. destruct s as [h held], s' as [h' held']. destruct St as (A & ws & P & Q).
    cbn [fst snd] in *. destruct a as [args c|x|k n].
    - destruct (call_held h0 h held args c HI A) as (os & _ & _ & [[_ H]|[(b' & _ & H)|(b' & gs & hx & ws' & _ & H & N' & _)]]).
      + rewrite H in P. discriminate P.
      + rewrite H in P. injection P as <- _ _. exact L.
      + rewrite H in P. injection P as <- _ _. apply lookup_in; [exact N'|]. apply in_or_app. right. apply lookup_some. exact L.
    - destruct (in_perm x held A) as [rest Hr]. destruct (release_held h0 h x rest) as (h2 & D & _ & Fr & _); [apply (inv_perm h0 h held); assumption|].
      rewrite D in P. injection P as <- _ _. rewrite Fr; [exact L|]. intros K. apply (F x); [left; reflexivity|symmetry; exact K].
    - rewrite null_step in P. injection P as <- _ _. exact L.
  Qed.
  Lemma session_delivers h0 h held args c h' b ws : NoDup (map fst h0) -> session address h0 (h, held) -> allowed held (ACall args c) ->
    perform address h (ACall args c) = Done h' b ws ->
    exists os, deref h (map snd args) = Some os /\
      ((c os = Some (Returns b None) /\ h' = h /\ ws = []) \/
       (exists gs, c os = Some (Returns b (Some gs)) /\ Forall2 (fun g w => delivered h' (fst g) w) gs ws)) /\
      (forall x e, In x (handles ws) -> In e (footprint x) -> ~ In (fst e) (map fst h)).
  Proof.
    intros N Hs A P. pose proof (session_inv h0 _ N Hs) as HI. cbn [fst snd] in HI.
    destruct (call_held h0 h held args c HI A) as (os & E & _ & [[_ H]|[(b' & Hc & H)|(b' & gs & hx & ws' & Hc & H & N' & SB & SH & HH & D)]]); rewrite H in P.
    - discriminate P.
    - injection P as <- <- <-. exists os. split; [exact E|]. split; [left; auto|]. intros x e [].
    - injection P as <- <- <-. exists os. split; [exact E|]. split; [right; exists gs; auto|]. intros x e Hx He K.
      assert (I : In e (flat_map footprint (handles ws'))) by (apply in_flat_map; exists x; split; assumption).
      apply (Permutation_in _ (Permutation_sym SH)) in I. apply in_map_iff in I. destruct I as ([q c'] & <- & I). cbn [shape fst] in K.
      rewrite map_app in N'. clear - N' I K. induction hx as [|e hx IH]; [destruct I|]. cbn [map app] in N'. inversion N' as [|? ? N1 N2]; subst.
      destruct I as [->|I]; [|apply IH; assumption]. apply N1. apply in_or_app. right. exact K.
  Qed.
  (** Misuse *)
  Lemma double_release h0 h held x h' : NoDup (map fst h0) -> session address h0 (h, held) -> In x held -> footprint x <> [] ->
    perform address h (ARelease x) = Done h' true [] -> perform address h' (ARelease x) = Undefined.
  Proof.
    intros N Hs Hx Fx P. pose proof (session_inv h0 _ N Hs) as HI. destruct (in_perm x held Hx) as [rest Hr].
    destruct (release_held h0 h x rest) as (h2 & D & _ & _ & Ab); [apply (inv_perm h0 h held); assumption|].
    rewrite D in P. injection P as ->. specialize (Ab Fx).
    pose proof (proj1 (Forall_forall _ _) (proj1 (proj2 HI)) x Hx) as [Hp Hn].
    destruct x as [k p|p n]; cbn [perform pointer footprint] in *.
    - unfold run_destroy. rewrite (proj2 (Z.eqb_neq p 0)) by exact Hp. rewrite dealloc_absent by exact Ab. reflexivity.
    - unfold run_free_vec, vec_drop. rewrite (proj2 (Z.eqb_neq p 0)) by exact Hp. rewrite usize_id by exact Hn. cbn [v_cap v_ptr].
      destruct (n =? 0) eqn:E; [exfalso; apply Fx; reflexivity|]. rewrite dealloc_absent by exact Ab. reflexivity.
  Qed.
  Lemma wrong_destructor h0 h held k k' p n : NoDup (map fst h0) -> session address h0 (h, held) -> In (HBox k p) held ->
    (k' <> k -> run_destroy h k' p = Undefined) /\ (c_int_as_usize n <> 0 -> run_free_vec h p n = Undefined).
  Proof.
    intros N Hs Hx. pose proof (session_inv h0 _ N Hs) as HI. destruct (in_perm _ held Hx) as [rest Hr]. cbn [fst snd] in HI.
    destruct (dealloc_held h0 h (HBox k p) rest p (LBox k)) as (_ & _ & _ & _ & _ & W); [apply (inv_perm h0 h held); assumption|reflexivity|].
    pose proof (proj1 (Forall_forall _ _) (proj1 (proj2 HI)) _ Hx) as [Hp _]. cbn in Hp. split.
    - intros Hk. unfold run_destroy. rewrite (proj2 (Z.eqb_neq p 0)) by exact Hp. rewrite W; [reflexivity|]. intros K. injection K as K. contradiction.
    - intros Hn. unfold run_free_vec, vec_drop. rewrite (proj2 (Z.eqb_neq p 0)) by exact Hp. cbn [v_cap v_ptr].
      rewrite (proj2 (Z.eqb_neq _ 0)) by exact Hn. rewrite W; [reflexivity|]. intros K; discriminate K.
  Qed.
  Lemma wrong_length h0 h held p n n' : NoDup (map fst h0) -> session address h0 (h, held) -> In (HVec p n) held -> n <> 0 ->
    c_int_as_usize n' <> n -> c_int_as_usize n' <> 0 -> run_free_vec h p n' = Undefined.
  Proof.
    intros N Hs Hx H0 Hn Hn0. pose proof (session_inv h0 _ N Hs) as HI. destruct (in_perm _ held Hx) as [rest Hr]. cbn [fst snd] in HI.
    destruct (dealloc_held h0 h (HVec p n) rest p (LBytes n)) as (_ & _ & _ & _ & _ & W); [apply (inv_perm h0 h held); assumption| |].
    { cbn. rewrite (proj2 (Z.eqb_neq n 0)) by exact H0. reflexivity. }
    pose proof (proj1 (Forall_forall _ _) (proj1 (proj2 HI)) _ Hx) as [Hp _]. cbn in Hp.
    unfold run_free_vec, vec_drop. rewrite (proj2 (Z.eqb_neq p 0)) by exact Hp. cbn [v_cap v_ptr].
    rewrite (proj2 (Z.eqb_neq _ 0)) by exact Hn0. rewrite W; [reflexivity|]. intros K. injection K as K. contradiction.
  Qed.
  (** Buffers too long for their length to fit a c_int *)
  Lemma long_buffer h l cap h' p n : 2 ^ 31 <= Z.of_nat (length l) <= cap -> cap < 2 ^ 63 -> give_out address h (GVec l, cap) = Some (h', WVec p n) ->
    run_free_vec h' p n = Undefined \/ (run_free_vec h' p n = Done h' true [] /\ In p (map fst h') /\ ~ In p (map fst h)).
  Proof.
    intros [H1 H2] H3 G. rewrite vec_gives in G by exact H2. destruct l as [|b l]; [cbn [length] in H1; lia|].
    remember (b :: l) as v eqn:Ev.
    assert (G' : Some ((address h (LBytes (Z.of_nat (length v))), Block (LBytes (Z.of_nat (length v))) (Bytes v)) :: h,
      WVec (address h (LBytes (Z.of_nat (length v)))) (as_c_int (Z.of_nat (length v)))) = Some (h', WVec p n)) by (rewrite <- G; subst v; reflexivity).
    clear G. injection G' as <- <- <-. destruct (HA h (LBytes (Z.of_nat (length v)))) as [A1 A2]. set (q := address h (LBytes (Z.of_nat (length v)))) in *.
    unfold run_free_vec. rewrite (proj2 (Z.eqb_neq q 0)) by exact A1. unfold vec_drop. cbn [v_cap v_ptr].
    destruct (Z.eqb_spec (c_int_as_usize (as_c_int (Z.of_nat (length v)))) 0) as [E|E].
    - right. split; [reflexivity|]. cbn [map fst]. split; [left; reflexivity|exact A2].
    - left. cbn [dealloc]. rewrite Z.eqb_refl. cbn [b_layout]. rewrite layout_eqb_neq; [reflexivity|]. intros K. injection K as K.
      set (n := Z.of_nat (length v)) in *. assert (Hn : 2 ^ 31 <= n < 2 ^ 63) by lia. clear - K Hn. unfold c_int_as_usize, as_c_int in K.
      pose proof (Z.mod_pos_bound (n + 2 ^ 31) (2 ^ 32) eq_refl) as Hm. set (m := (n + 2 ^ 31) mod 2 ^ 32) in *.
      destruct (Z_le_gt_dec (2 ^ 31) m) as [Hc|Hc].
      + rewrite Z.mod_small in K by lia. lia.
      + assert (E : (m - 2 ^ 31) mod 2 ^ 64 = m - 2 ^ 31 + 2 ^ 64).
        { symmetry. apply Z.mod_unique with (-1); lia. }
        rewrite E in K. lia.
  Qed.
End Proofs.
