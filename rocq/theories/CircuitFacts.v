(** Laws of constraint programs. *)
From Verif Require Import Base Field Curve Circuit.

Lemma holds_bind {A B} (c : circ A) (f : A -> circ B) y : holds (cbind c f) y <-> exists x, holds c x /\ holds (f x) y.
Proof.
  induction c as [a|T h k IH|b k IH|e]; cbn [cbind holds].
  - split; [eauto|]. intros (x & -> & H). exact H.
  - setoid_rewrite IH. split; [intros (v & x & H & H'); eauto|intros (x & (v & H) & H'); eauto].
  - rewrite IH. split; [intros (Hb & x & H & H'); eauto|intros (x & (Hb & H) & H'); eauto].
  - split; [tauto|]. intros (x & [] & _).
Qed.
Lemma prover_bind {A B} (c : circ A) (f : A -> circ B) : prover (cbind c f) =
  match prover c with
  | Val (a, s) => smap (fun '(b, s') => (b, s && s')) (prover (f a))
  | Fails e => Fails e
  | Panics => Panics
  end.
Proof.
  induction c as [a|T h k IH|b k IH|e]; cbn [cbind prover].
  - destruct (prover (f a)) as [[x s]|e|]; reflexivity.
  - destruct h; try reflexivity. apply IH.
  - rewrite IH. destruct (prover k) as [[x s]|e|]; cbn [smap]; try reflexivity.
    destruct (prover (f x)) as [[y s']|e|]; cbn [smap]; try reflexivity. rewrite andb_assoc. reflexivity.
  - destruct e as [[]|e|]; reflexivity.
Qed.
(** What the prover computes is one of the satisfying assignments. *)
Lemma prover_holds {A} (c : circ A) x : prover c = Val (x, true) -> holds c x.
Proof.
  induction c as [a|T h k IH|b k IH|e]; cbn [prover holds].
  - injection 1 as ->. reflexivity.
  - destruct h as [v|e|]; try discriminate. intros H. exists v. apply IH, H.
  - destruct (prover k) as [[y s]|e|]; try discriminate. cbn [smap]. intros H. injection H as -> H.
    apply andb_true_iff in H. destruct H as [-> ->]. split; [reflexivity|]. apply IH. reflexivity.
  - destruct e as [[]|e|]; discriminate.
Qed.
Lemma prover_bind_val {A B} (c : circ A) (f : A -> circ B) a b :
  prover c = Val (a, true) -> prover (f a) = Val (b, true) -> prover (cbind c f) = Val (b, true).
Proof. intros H H'. rewrite prover_bind, H, H'. reflexivity. Qed.
Lemma prover_bind_inv {A B} (c : circ A) (f : A -> circ B) b : prover (cbind c f) = Val (b, true) ->
  exists a, prover c = Val (a, true) /\ prover (f a) = Val (b, true).
Proof.
  rewrite prover_bind. destruct (prover c) as [[a s]|e|]; try discriminate. intros H. exists a.
  destruct (prover (f a)) as [[b' s']|e|]; try discriminate. cbn [smap] in H. injection H as -> H.
  apply andb_true_iff in H. destruct H as [-> ->]. auto.
Qed.
Lemma holds_enforce b x : holds (enforce b) x <-> b = true.
Proof. destruct x. cbn. tauto. Qed.
Lemma prover_enforce b : prover (enforce b) = Val (tt, b).
Proof. destruct b; reflexivity. Qed.
Lemma holds_witness {T} (h : synth T) v : holds (witness h) v.
Proof. cbn. eauto. Qed.
Lemma prover_witness {T} (v : T) : prover (witness (Val v)) = Val (v, true).
Proof. reflexivity. Qed.

Lemma bfq_val b : fqv (bfq b) = if b then 1 else 0. Proof. destruct b; vm_compute; reflexivity. Qed.
Lemma bfq_inj b b' : bfq b = bfq b' -> b = b'.
Proof. intros H. apply (f_equal fqv) in H. rewrite !bfq_val in H. destruct b, b'; congruence. Qed.
Lemma bfq_is_1 b : qeqb (bfq b) q1 = b. Proof. destruct b; vm_compute; reflexivity. Qed.
Lemma holds_new_bool h b : holds (new_bool h) b.
Proof. exists (bfq b). split; [destruct b; vm_compute; reflexivity|apply bfq_is_1]. Qed.
Lemma prover_new_bool b : prover (new_bool (Val b)) = Val (b, true).
Proof. cbn [new_bool prover smap]. rewrite bfq_is_1. destruct b; vm_compute; reflexivity. Qed.

Lemma holds_cmap {A B} (f : A -> circ B) l ys : holds (cmap f l) ys <-> Forall2 (fun a b => holds (f a) b) l ys.
Proof.
  revert ys. induction l as [|a l IH]; intros ys; cbn [cmap].
  - cbn [holds]. split; [intros <-; constructor|inversion 1; reflexivity].
  - rewrite holds_bind. setoid_rewrite holds_bind. setoid_rewrite IH. cbn [holds]. split.
    + intros (b & H & bs & H' & <-). constructor; assumption.
    + inversion 1; subst. eauto 6.
Qed.
Lemma prover_cmap {A B} (f : A -> circ B) (g : A -> B) l : (forall a, In a l -> prover (f a) = Val (g a, true)) ->
  prover (cmap f l) = Val (map g l, true).
Proof.
  induction l as [|a l IH]; intros H; cbn [cmap map]; [reflexivity|].
  apply (prover_bind_val _ _ (g a)); [apply H; left; reflexivity|].
  apply (prover_bind_val _ _ (map g l)); [apply IH; intros; apply H; right; assumption|reflexivity].
Qed.
Lemma holds_ceach {A} (f : A -> circ unit) l x : holds (ceach f l) x <-> Forall (fun a => holds (f a) tt) l.
Proof.
  destruct x. induction l as [|a l IH]; cbn [ceach].
  - cbn. split; auto.
  - rewrite holds_bind. split.
    + intros ([] & H & H'). constructor; [exact H|apply IH, H'].
    + inversion 1; subst. exists tt. split; [assumption|apply IH; assumption].
Qed.
Lemma prover_ceach {A} (f : A -> circ unit) l : (forall a, In a l -> prover (f a) = Val (tt, true)) ->
  prover (ceach f l) = Val (tt, true).
Proof.
  induction l as [|a l IH]; intros H; cbn [ceach]; [reflexivity|].
  apply (prover_bind_val _ _ tt); [apply H; left; reflexivity|apply IH; intros; apply H; right; assumption].
Qed.
