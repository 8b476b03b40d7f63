(** Number theory over [Z] used by the model: Fermat's little theorem, Pocklington's criterion and
    certificates that the BLS12-377 moduli are prime.  Nothing here is from /repo except the two
    constants [p] and [r], which are the base and scalar field moduli of BLS12-377 fixed by the
    dependency ark-bls12-377 (crates/bls-crypto/Cargo.toml lines 8-14). *)
From Coq Require Import ZArith Znumtheory Zpow_facts List Permutation Lia Bool.
Import ListNotations.
Open Scope Z_scope.

(** ** Fermat *)

Definition zprod (l : list Z) : Z := fold_right Z.mul 1 l.

Lemma zprod_perm l l' : Permutation l l' -> zprod l = zprod l'.
Proof. induction 1; cbn [zprod fold_right] in *; unfold zprod in *; lia. Qed.

Definition units (q : Z) : list Z := map Z.of_nat (seq 1 (Z.to_nat (q - 1))).

Lemma in_units q x : 1 < q -> In x (units q) <-> 1 <= x < q.
Proof.
  intros Hq. unfold units. rewrite in_map_iff. split.
  - intros [n [<- Hn]]. apply in_seq in Hn. lia.
  - intros Hx. exists (Z.to_nat x). split; [lia|]. apply in_seq. lia.
Qed.

Lemma nodup_units q : NoDup (units q).
Proof. apply FinFun.Injective_map_NoDup; [intros a b; lia | apply seq_NoDup]. Qed.

Lemma zprod_map_mul_mod a q l : 0 < q ->
  (zprod (map (fun i => (a * i) mod q) l)) mod q = (a ^ Z.of_nat (length l) * zprod l) mod q.
Proof.
  intros Hq. induction l as [|x l IH]; [reflexivity|].
  cbn [map length]. unfold zprod in *; cbn [fold_right].
  rewrite Nat2Z.inj_succ, Z.pow_succ_r by lia.
  rewrite Z.mul_mod, IH, <- Z.mul_mod by lia.
  rewrite <- Z.mul_mod_idemp_l, Z.mod_mod, Z.mul_mod_idemp_l by lia.
  f_equal; ring.
Qed.

Lemma zprod_rel_prime q l : prime q -> (forall x, In x l -> 1 <= x < q) -> rel_prime q (zprod l).
Proof.
  intros Hp. induction l as [|x l IH]; intros Hl; cbn.
  - apply rel_prime_sym, rel_prime_1.
  - apply rel_prime_mult; [|apply IH; intros; apply Hl; right; assumption].
    apply rel_prime_sym, rel_prime_le_prime; [assumption|]. apply Hl; left; reflexivity.
Qed.

Lemma mod_cancel_l q a b c : 1 < q -> rel_prime q c -> (c * a) mod q = (c * b) mod q -> a mod q = b mod q.
Proof.
  intros Hq Hc H.
  assert (Hd : (q | c * (a - b))).
  { apply Z.mod_divide; [lia|]. rewrite Z.mul_sub_distr_l, Zminus_mod, H, Z.sub_diag. apply Zmod_0_l. }
  apply Gauss in Hd; [|assumption].
  destruct Hd as [k Hk]. replace a with (b + k * q) by lia. apply Z_mod_plus_full.
Qed.

Theorem fermat_little q a : prime q -> ~ (q | a) -> (a ^ (q - 1)) mod q = 1.
Proof.
  intros Hp Ha. assert (Hq : 1 < q) by (destruct Hp; lia).
  assert (Hra : rel_prime q a) by (apply prime_rel_prime; assumption).
  assert (Hperm : Permutation (map (fun i => (a * i) mod q) (units q)) (units q)).
  { apply Permutation_sym. apply NoDup_Permutation_bis.
    - apply nodup_units.
    - rewrite map_length; lia.
    - (* incl (units q) (map ...) : use injectivity instead *)
      set (f := fun i => (a * i) mod q).
      assert (Hnd : NoDup (map f (units q))).
      { assert (Hgen : forall l, NoDup l -> (forall x, In x l -> 1 <= x < q) -> NoDup (map f l)).
        { induction l as [|x l IH]; cbn; intros Hn Hl; [constructor|].
          inversion Hn as [|? ? Hx Hn']; subst. constructor; [|apply IH; auto].
          rewrite in_map_iff. intros [y [Hy Hin]]. apply Hx.
          apply mod_cancel_l in Hy; [|lia|assumption].
          rewrite !Z.mod_small in Hy; [subst; assumption| |].
          - specialize (Hl x (or_introl eq_refl)); lia.
          - specialize (Hl y (or_intror Hin)); lia. }
        apply Hgen; [apply nodup_units | intros x Hx; apply in_units in Hx; lia]. }
      assert (Hincl : incl (map f (units q)) (units q)).
      { intros y Hy. apply in_map_iff in Hy. destruct Hy as [x [<- Hx]].
        apply in_units in Hx; [|lia]. apply in_units; [lia|]. unfold f.
        assert (0 <= (a * x) mod q < q) by (apply Z.mod_pos_bound; lia).
        assert ((a * x) mod q <> 0); [|lia].
        intros H0. apply Z.mod_divide in H0; [|lia].
        apply Gauss in H0; [|assumption]. apply Z.divide_pos_le in H0; lia. }
      apply NoDup_length_incl; [assumption|rewrite map_length; lia|assumption]. }
  pose proof (zprod_map_mul_mod a q (units q) ltac:(lia)) as H.
  rewrite (zprod_perm _ _ Hperm) in H.
  unfold units at 2 in H. rewrite map_length, seq_length, Z2Nat.id in H by lia.
  assert (Hrp : rel_prime q (zprod (units q))).
  { apply zprod_rel_prime; [assumption|]. intros x Hx; apply in_units in Hx; lia. }
  replace (zprod (units q)) with (zprod (units q) * 1) in H at 1 by ring.
  rewrite (Z.mul_comm (a ^ _)) in H.
  apply mod_cancel_l in H; [|lia|assumption].
  rewrite Z.mod_1_l in H by lia. symmetry; exact H.
Qed.

(** ** Modular exponentiation that computes *)

Fixpoint powmod_pos (a : Z) (e : positive) (m : Z) : Z :=
  match e with
  | xH => a mod m
  | xO e' => let s := powmod_pos a e' m in (s * s) mod m
  | xI e' => let s := powmod_pos a e' m in (a * ((s * s) mod m)) mod m
  end.

Definition powmod (a e m : Z) : Z :=
  match e with Z0 => 1 mod m | Zpos e' => powmod_pos a e' m | Zneg _ => 0 end.

Lemma powmod_pos_spec a e m : 0 < m -> powmod_pos a e m = (a ^ Zpos e) mod m.
Proof.
  intros Hm. induction e as [e IH|e IH|]; cbn [powmod_pos].
  - rewrite IH, Pos2Z.inj_xI. replace (2 * Z.pos e + 1) with (1 + (Z.pos e + Z.pos e)) by lia.
    rewrite !Z.pow_add_r, Z.pow_1_r by lia.
    rewrite Z.mul_mod_idemp_r by lia.
    rewrite <- (Z.mul_mod_idemp_r a (a ^ Z.pos e * a ^ Z.pos e)) by lia.
    rewrite (Z.mul_mod (a ^ Z.pos e) (a ^ Z.pos e)) by lia.
    rewrite Z.mul_mod_idemp_r by lia. reflexivity.
  - rewrite IH, Pos2Z.inj_xO. replace (2 * Z.pos e) with (Z.pos e + Z.pos e) by lia.
    rewrite Z.pow_add_r by lia. symmetry. apply Z.mul_mod; lia.
  - rewrite Z.pow_1_r; reflexivity.
Qed.

Lemma powmod_spec a e m : 0 <= e -> 0 < m -> powmod a e m = (a ^ e) mod m.
Proof. intros He Hm. destruct e; cbn [powmod]; [reflexivity|apply powmod_pos_spec; lia|lia]. Qed.

(** ** Pocklington *)

Lemma pow_mod_one d a n k : 1 < d -> 0 <= n -> 0 <= k -> (a ^ n) mod d = 1 -> (a ^ (n * k)) mod d = 1.
Proof.
  intros Hd Hn Hk H. rewrite Z.pow_mul_r by lia.
  pattern k. apply natlike_ind; [|intros j Hj IH|exact Hk].
  - cbn. apply Z.mod_1_l; lia.
  - rewrite Z.pow_succ_r by lia. rewrite Z.mul_mod, H, IH by lia. apply Z.mod_1_l; lia.
Qed.

Lemma pow_gcd_one d a m n : 1 < d -> 0 < m -> 0 < n ->
  (a ^ m) mod d = 1 -> (a ^ n) mod d = 1 -> (a ^ (Z.gcd m n)) mod d = 1.
Proof.
  intros Hd Hm Hn H1 H2.
  (* gcd = u*m + v*n; make u positive and v negative *)
  destruct (Z.gcd_bezout m n (Z.gcd m n) eq_refl) as [u [v Huv]].
  set (g := Z.gcd m n) in *.
  (* choose big k so u' = u + k n >= 0 and v' = v - k m <= 0 *)
  set (k := Z.abs u + Z.abs v).
  set (u' := u + k * n). set (w := k * m - v).
  assert (Hk : 0 <= k) by (unfold k; lia).
  assert (Hu' : 0 <= u') by (unfold u', k in *; nia).
  assert (Hw : 0 <= w) by (unfold w, k in *; nia).
  assert (E : u' * m = g + w * n) by (unfold u', w; lia).
  assert (Hg : 0 <= g) by apply Z.gcd_nonneg.
  pose proof (pow_mod_one d a m u' Hd ltac:(lia) Hu' H1) as A1.
  pose proof (pow_mod_one d a n w Hd ltac:(lia) Hw H2) as A2.
  rewrite Z.mul_comm, E, Z.pow_add_r, (Z.mul_comm w n) in A1 by nia.
  rewrite Z.mul_mod, A2, Z.mul_1_r, Z.mod_mod in A1 by lia. exact A1.
Qed.

(** Certificate entry: (prime factor, multiplicity, witness). *)
Definition pock_entry (N : Z) (e : Z * Z * Z) : Prop :=
  let '(q, k, a) := e in
  1 <= k /\ (q ^ k | N - 1) /\ (a ^ (N - 1)) mod N = 1 /\ Z.gcd ((a ^ ((N - 1) / q)) mod N - 1) N = 1.

Definition cert_factor (c : list (Z * Z * Z)) : Z := fold_right (fun '(q, k, _) acc => q ^ k * acc) 1 c.

Fixpoint pairwise_distinct (l : list Z) : bool :=
  match l with [] => true | x :: l' => forallb (fun y => negb (x =? y)) l' && pairwise_distinct l' end.

Lemma prime_pow_divide_gcd q k g n : prime q -> 1 <= k -> (g | n) -> (q ^ k | n) -> ~ (q ^ k | g) ->
  0 < n -> 0 < g -> (g | n / q).
Proof.
  (* n = g*h ; q^k | g*h, if q does not divide h then q^k coprime to h so q^k | g; so q | h *)
  intros Hq Hk [h Hh] Hn Hng Hpos Hg.
  destruct (Zdivide_dec q h) as [[h' Hh']|Hnq].
  - exists h'. subst h. rewrite Hh. replace (h' * q * g) with (h' * g * q) by ring.
    rewrite Z.div_mul; [reflexivity|destruct Hq; lia].
  - exfalso. apply Hng. rewrite Hh in Hn.
    apply Gauss with h; [exact Hn|].
    apply rel_prime_sym. apply rel_prime_Zpower_r; [lia|].
    apply rel_prime_sym, prime_rel_prime; assumption.
Qed.

Lemma exists_prime_divisor n : 1 < n -> exists d, prime d /\ (d | n) /\ (prime n \/ d * d <= n).
Proof.
  intros Hn.
  assert (H : forall m, 0 <= m -> forall n, 1 < n <= m -> exists d, prime d /\ (d | n) /\ (prime n \/ d * d <= n)).
  { apply (natlike_ind (fun m => forall n, 1 < n <= m -> exists d, prime d /\ (d | n) /\ (prime n \/ d * d <= n))); [lia|].
    intros m Hm IH n' Hn'.
    destruct (prime_dec n') as [Hp|Hnp].
    - exists n'. split; [assumption|]. split; [apply Z.divide_refl|left; assumption].
    - destruct (not_prime_divide n' ltac:(lia) Hnp) as [d [Hd [e He]]].
      assert (1 < e) by nia.
      destruct (Z_le_gt_dec d e).
      + destruct (IH d ltac:(nia)) as [c [Hc [Hcd Hor]]].
        exists c. split; [assumption|]. split; [apply Z.divide_trans with d; [assumption|exists e; lia]|].
        right. apply Z.divide_pos_le in Hcd; [|lia]. destruct Hc; nia.
      + destruct (IH e ltac:(nia)) as [c [Hc [Hcd Hor]]].
        exists c. split; [assumption|]. split; [apply Z.divide_trans with e; [assumption|exists d; lia]|].
        right. apply Z.divide_pos_le in Hcd; [|lia]. destruct Hc; nia. }
  apply (H n); lia.
Qed.

Lemma distinct_prime_powers_divide (c : list (Z * Z * Z)) n :
  (forall q k a, In (q, k, a) c -> prime q /\ 1 <= k /\ (q ^ k | n)) ->
  pairwise_distinct (map (fun e => fst (fst e)) c) = true ->
  (fold_right (fun '(q, k, _) acc => q ^ k * acc) 1 c | n).
Proof.
  induction c as [|[[q k] a] c IH]; intros Hc Hd; cbn [fold_right map fst pairwise_distinct] in *.
  - apply Z.divide_1_l.
  - apply andb_true_iff in Hd. destruct Hd as [Hx Hd].
    destruct (Hc q k a (or_introl eq_refl)) as [Hq [Hk [m Hm]]].
    assert (Hrest : (fold_right (fun '(q, k, _) acc => q ^ k * acc) 1 c | n)).
    { apply IH; [intros; apply (Hc q0 k0 a0); right; assumption|assumption]. }
    set (F := fold_right _ _ _) in *.
    assert (Hrel : rel_prime (q ^ k) F).
    { assert (Hg : forall c', incl c' c -> rel_prime (q ^ k) (fold_right (fun '(q, k, _) acc => q ^ k * acc) 1 c')).
      { induction c' as [|[[q' k'] a'] c' IH']; intros Hi; cbn [fold_right].
        - apply rel_prime_sym, rel_prime_1.
        - apply rel_prime_mult; [|apply IH'; intros z Hz; apply Hi; right; assumption].
          assert (Hin : In (q', k', a') c) by (apply Hi; left; reflexivity).
          destruct (Hc _ _ _ (or_intror Hin)) as [Hq' [Hk' _]].
          apply rel_prime_Zpower; [lia|lia|].
          rewrite forallb_forall in Hx.
          assert (Hne : negb (q =? q') = true).
          { apply Hx. apply in_map_iff. exists (q', k', a'). split; [reflexivity|assumption]. }
          destruct (Z.eqb_spec q q'); [discriminate|].
          apply prime_rel_prime; [assumption|]. intros Hdv.
          apply prime_div_prime in Hdv; [|assumption|assumption]. lia. }
      apply Hg, incl_refl. }
    subst n. destruct Hrest as [j Hj].
    assert (HF : (F | m)).
    { apply Gauss with (q ^ k); [rewrite Z.mul_comm; exists j; exact Hj|]. apply rel_prime_sym; assumption. }
    destruct HF as [i Hi]. exists i. rewrite Hi. ring.
Qed.

Theorem pocklington N c :
  1 < N -> (forall e, In e c -> pock_entry N e) -> N < cert_factor c ^ 2 ->
  pairwise_distinct (map (fun e => fst (fst e)) c) = true ->
  (forall q k a, In (q, k, a) c -> prime q) ->
  prime N.
Proof.
  intros H1 Hc HF Hdist Hpr. unfold cert_factor in HF.
  destruct (exists_prime_divisor N H1) as [d [Hd [Hdn [Hp|Hdd]]]]; [assumption|exfalso].
  assert (Hd1 : 1 < d) by (destruct Hd; lia).
  set (F := fold_right _ _ _) in *.
  assert (HFd : (F | d - 1)).
  { apply distinct_prime_powers_divide; [|assumption].
    intros q k a Hin. pose proof (Hpr _ _ _ Hin) as Hq.
    pose proof (Hc _ Hin) as He. unfold pock_entry in He.
    destruct He as [Hk [Hdiv [Hpow Hgcd]]].
    assert (Hq1 : 1 < q) by (destruct Hq; lia).
    assert (Hqk : 0 < q ^ k) by (apply Z.pow_pos_nonneg; lia).
    split; [assumption|]. split; [assumption|].
    destruct (Zdivide_dec (q ^ k) (d - 1)) as [Hy|Hno]; [assumption|exfalso].
    assert (HqN : (q | N - 1)).
    { apply Z.divide_trans with (q ^ k); [|assumption]. exists (q ^ (k - 1)).
      rewrite Z.mul_comm, <- Z.pow_succ_r by lia. f_equal; lia. }
    assert (Hdivn : 0 < (N - 1) / q).
    { destruct HqN as [j Hj]. rewrite Hj, Z.div_mul by lia. nia. }
    assert (HpowD : (a ^ (N - 1)) mod d = 1).
    { rewrite (Zmod_div_mod d N) by (assumption || lia). rewrite Hpow. apply Z.mod_1_l; lia. }
    assert (Hda : ~ (d | a)).
    { intros [j Hj]. rewrite Hj in HpowD.
      replace (N - 1) with (Z.succ (N - 2)) in HpowD by lia.
      rewrite Z.pow_succ_r in HpowD by lia.
      replace (j * d * (j * d) ^ (N - 2)) with ((j * (j * d) ^ (N - 2)) * d) in HpowD by ring.
      rewrite Z.mod_mul in HpowD by lia. lia. }
    pose proof (fermat_little d a Hd Hda) as Hf.
    destruct (Z.eq_dec (d - 1) 0) as [|Hd0]; [lia|].
    pose proof (pow_gcd_one d a (N - 1) (d - 1) Hd1 ltac:(lia) ltac:(lia) HpowD Hf) as Hg.
    set (g := Z.gcd (N - 1) (d - 1)) in *.
    assert (Hgpos : 0 < g).
    { assert (0 <= g) by apply Z.gcd_nonneg. assert (g <> 0); [|lia].
      unfold g. intros E. apply Z.gcd_eq_0_l in E. lia. }
    assert (HgN : (g | (N - 1) / q)).
    { apply prime_pow_divide_gcd with k; try assumption; try lia.
      - apply Z.gcd_divide_l.
      - intros Hx. apply Hno. apply Z.divide_trans with g; [assumption|apply Z.gcd_divide_r]. }
    destruct HgN as [j Hj].
    assert (Hone : (a ^ ((N - 1) / q)) mod d = 1).
    { rewrite Hj, Z.mul_comm. apply pow_mod_one; try lia; nia. }
    (* d divides a^((N-1)/q) mod N - 1 and N *)
    assert (Hdd' : (d | Z.gcd ((a ^ ((N - 1) / q)) mod N - 1) N)).
    { apply Z.gcd_greatest; [|assumption].
      apply Z.mod_divide; [lia|].
      rewrite Zminus_mod, <- (Zmod_div_mod d N) by (assumption || lia).
      rewrite Hone, Z.mod_1_l by lia. apply Z.mod_0_l; lia. }
    rewrite Hgcd in Hdd'. apply Z.divide_1_r_nonneg in Hdd'; lia. }
  assert (0 < F).
  { unfold F. clear -Hpr Hc. induction c as [|[[q k] a] c IH]; cbn [fold_right]; [lia|].
    apply Z.mul_pos_pos.
    - pose proof (Hc _ (or_introl eq_refl)) as He. unfold pock_entry in He.
      destruct He as [Hk _].
      apply Z.pow_pos_nonneg; [|lia]. destruct (Hpr q k a (or_introl eq_refl)); lia.
    - apply IH; [intros x Hx; apply Hc; right; assumption|].
      intros q' k' a' Hx; apply (Hpr q' k' a'); right; assumption. }
  apply Z.divide_pos_le in HFd; [|lia]. nia.
Qed.

(** ** Fast certificate check: bit-serial Montgomery arithmetic
    (only an evaluation strategy: the soundness lemma below does not trust any bound). *)

(** [mmul k s t m tm acc]: k halving steps; requires [s] to be exhausted after k steps. *)
Fixpoint mmul (k : nat) (s t m tm acc : N) : option N :=
  match k with
  | O => match s with N0 => Some acc | _ => None end
  | S k' =>
    let a1 := if N.odd s then (if xorb (N.odd acc) (N.odd t) then acc + tm else acc + t)%N
              else (if N.odd acc then acc + m else acc)%N in
    mmul k' (N.div2 s) t m tm (N.div2 a1)
  end.

Lemma N_div2_even a : N.odd a = false -> (2 * Z.of_N (N.div2 a) = Z.of_N a)%Z.
Proof. intros H. pose proof (N.div2_odd a) as E. rewrite H in E. unfold N.b2n in E. lia. Qed.

Lemma N_div2_split a : (Z.of_N a = 2 * Z.of_N (N.div2 a) + (if N.odd a then 1 else 0))%Z.
Proof. pose proof (N.div2_odd a) as E. destruct (N.odd a); unfold N.b2n in E; lia. Qed.

Lemma mmul_spec k m t tm : N.odd m = true -> tm = (t + m)%N ->
  forall s acc v, mmul k s t m tm acc = Some v ->
  (Z.of_N m | 2 ^ Z.of_nat k * Z.of_N v - (Z.of_N acc + Z.of_N s * Z.of_N t)).
Proof.
  intros Hm ->. induction k as [|k IH]; intros s acc v H.
  - cbn [mmul] in H. destruct s; [|discriminate]. injection H as <-.
    exists 0. change (2 ^ Z.of_nat 0) with 1. lia.
  - cbn [mmul] in H.
    set (a1 := if N.odd s then _ else _) in H.
    assert (Ha1 : N.odd a1 = false /\ exists j, (Z.of_N a1 = Z.of_N acc + (if N.odd s then Z.of_N t else 0) + j * Z.of_N m)%Z).
    { subst a1. destruct (N.odd s).
      - destruct (N.odd acc) eqn:Ea, (N.odd t) eqn:Et; cbn [xorb]; rewrite ?N.odd_add, ?Ea, ?Et, ?Hm; (split; [reflexivity|]).
        + exists 0; lia. + exists 1; lia. + exists 1; lia. + exists 0; lia.
      - destruct (N.odd acc) eqn:Ea; rewrite ?N.odd_add, ?Ea, ?Hm; (split; [reflexivity|]); [exists 1|exists 0]; lia. }
    destruct Ha1 as [Hodd [j Hj]].
    apply IH in H. destruct H as [i Hi].
    pose proof (N_div2_even _ Hodd) as E1. pose proof (N_div2_split s) as E2.
    rewrite Nat2Z.inj_succ, Z.pow_succ_r by lia.
    exists (2 * i + j). rewrite E2. destruct (N.odd s); nia.
Qed.

Definition mont (m : N) (k : nat) (s t : N) : option N := mmul k s t m (t + m)%N 0%N.

(** Left-to-right exponentiation starting from a Montgomery representative. *)
Fixpoint mexp (m : N) (k : nat) (b : N) (e : positive) : option N :=
  match e with
  | xH => Some b
  | xO e' => match mexp m k b e' with Some s => mont m k s s | None => None end
  | xI e' => match mexp m k b e' with
             | Some s => match mont m k s s with Some s2 => mont m k s2 b | None => None end
             | None => None end
  end.

Definition rep (m k v a : Z) : Prop := (m | v - 2 ^ k * a).

Lemma rel_prime_pow2 m k : Z.odd m = true -> 0 <= k -> rel_prime m (2 ^ k).
Proof.
  intros Hm Hk. apply rel_prime_Zpower_r; [assumption|].
  apply rel_prime_sym, prime_rel_prime; [apply prime_2|].
  intros [j Hj]. subst m. rewrite Z.odd_mul in Hm. rewrite andb_comm in Hm. discriminate.
Qed.

Lemma N_odd_Z m : N.odd m = Z.odd (Z.of_N m).
Proof. destruct m as [|[]]; reflexivity. Qed.

Lemma mont_rep m k s t v a b : N.odd m = true ->
  mont m k s t = Some v -> rep (Z.of_N m) (Z.of_nat k) (Z.of_N s) a -> rep (Z.of_N m) (Z.of_nat k) (Z.of_N t) b ->
  rep (Z.of_N m) (Z.of_nat k) (Z.of_N v) (a * b).
Proof.
  intros Hm H [i Hi] [j Hj]. unfold mont in H. apply mmul_spec in H; [|assumption|reflexivity].
  destruct H as [l Hl]. cbn [Z.of_N] in Hl. rewrite Z.add_0_l in Hl. unfold rep in *.
  set (R := 2 ^ Z.of_nat k) in *. set (M := Z.of_N m) in *.
  apply Gauss with R; [|apply rel_prime_pow2; [unfold M; rewrite <- N_odd_Z; assumption|lia]].
  assert (Es : Z.of_N s = i * M + R * a) by lia. assert (Et : Z.of_N t = j * M + R * b) by lia.
  assert (El : R * Z.of_N v = l * M + Z.of_N s * Z.of_N t) by lia.
  exists (l + i * (j * M + R * b) + R * a * j).
  rewrite Z.mul_sub_distr_l, El, Es, Et. ring.
Qed.

Lemma mexp_rep m k b a : N.odd m = true -> rep (Z.of_N m) (Z.of_nat k) (Z.of_N b) a ->
  forall e v, mexp m k b e = Some v -> rep (Z.of_N m) (Z.of_nat k) (Z.of_N v) (a ^ Zpos e).
Proof.
  intros Hm Hb. induction e as [e IH|e IH|]; intros v H; cbn [mexp] in H.
  - destruct (mexp m k b e) as [s|]; [|discriminate].
    destruct (mont m k s s) as [s2|] eqn:E2; [|discriminate].
    specialize (IH s eq_refl).
    pose proof (mont_rep _ _ _ _ _ _ _ Hm E2 IH IH) as H2.
    pose proof (mont_rep _ _ _ _ _ _ _ Hm H H2 Hb) as H3.
    replace (a ^ Z.pos e~1) with (a ^ Z.pos e * a ^ Z.pos e * a); [exact H3|].
    rewrite Pos2Z.inj_xI. replace (2 * Z.pos e + 1) with (Z.pos e + Z.pos e + 1) by lia.
    rewrite !Z.pow_add_r, Z.pow_1_r by lia. reflexivity.
  - destruct (mexp m k b e) as [s|]; [|discriminate].
    specialize (IH s eq_refl). pose proof (mont_rep _ _ _ _ _ _ _ Hm H IH IH) as H2.
    replace (a ^ Z.pos e~0) with (a ^ Z.pos e * a ^ Z.pos e); [exact H2|].
    rewrite Pos2Z.inj_xO. replace (2 * Z.pos e) with (Z.pos e + Z.pos e) by lia.
    rewrite Z.pow_add_r by lia. reflexivity.
  - injection H as <-. rewrite Z.pow_1_r. exact Hb.
Qed.

(** Check of one entry.  [k] is the number of Montgomery steps. *)
Definition pock_entry_ok (k : nat) (N : Z) (e : Z * Z * Z) : bool :=
  let '(q, l, a) := e in
  let m := Z.to_N N in let R := 2 ^ Z.of_nat k in
  (1 <=? l) && ((N - 1) mod (q ^ l) =? 0) && (q * ((N - 1) / q) =? N - 1) && (0 <=? a) &&
  match (N - 1) / q, q with
  | Zpos u, Zpos q' =>
    match mexp m k (Z.to_N ((R * a) mod N)) u with
    | Some g => match mexp m k g q' with
                | Some h => ((Z.of_N h - R) mod N =? 0) && (Z.gcd (Z.of_N g - R) N =? 1)
                | None => false end
    | None => false end
  | _, _ => false
  end.

Lemma pock_entry_ok_sound k N e : 1 < N -> Z.odd N = true -> pock_entry_ok k N e = true -> pock_entry N e.
Proof.
  intros HN Hodd H. destruct e as [[q l] a]. unfold pock_entry_ok in H. unfold pock_entry.
  rewrite !andb_true_iff in H. destruct H as [[[[Hl Hd] Hq] Ha] H].
  apply Z.leb_le in Hl. apply Z.eqb_eq in Hd. apply Z.eqb_eq in Hq. apply Z.leb_le in Ha.
  destruct ((N - 1) / q) as [|u|] eqn:Eu; try discriminate.
  destruct q as [|q|]; try discriminate.
  set (R := 2 ^ Z.of_nat k) in *. set (m := Z.to_N N) in *.
  assert (Em : Z.of_N m = N) by (unfold m; apply Z2N.id; lia).
  assert (Hmo : N.odd m = true) by (rewrite N_odd_Z, Em; assumption).
  destruct (mexp m k _ u) as [g|] eqn:Eg; [|discriminate].
  destruct (mexp m k g q) as [h|] eqn:Eh; [|discriminate].
  apply andb_true_iff in H. destruct H as [Hh Hg]. apply Z.eqb_eq in Hh. apply Z.eqb_eq in Hg.
  assert (Hb : rep N (Z.of_nat k) (Z.of_N (Z.to_N ((R * a) mod N))) a).
  { unfold rep. rewrite Z2N.id by (apply Z.mod_pos_bound; lia). fold R.
    rewrite Z.mod_eq by lia. exists (- ((R * a) / N)). ring. }
  set (b0 := Z.to_N ((R * a) mod N)) in *. rewrite <- Em in Hb. pose proof (mexp_rep _ _ _ _ Hmo Hb _ _ Eg) as Rg.
  pose proof (mexp_rep _ _ _ _ Hmo Rg _ _ Eh) as Rh. rewrite Em in *.
  rewrite <- Z.pow_mul_r in Rh by lia.
  replace (Z.pos u * Z.pos q) with (N - 1) in Rh by lia.
  assert (Hrp : rel_prime N R) by (apply rel_prime_pow2; [assumption|lia]).
  assert (Hqnz : 0 < Z.pos q ^ l) by (apply Z.pow_pos_nonneg; lia).
  split; [assumption|]. split; [apply Z.mod_divide; [lia|assumption]|]. split.
  - apply Z.mod_divide in Hh; [|lia]. unfold rep in Rh. fold R in Rh.
    destruct Hh as [i Hi]. destruct Rh as [j Hj].
    assert (Hdv : (N | a ^ (N - 1) - 1)).
    { apply Gauss with R; [|assumption]. exists (i - j). rewrite Z.mul_sub_distr_l. lia. }
    destruct Hdv as [z Hz]. replace (a ^ (N - 1)) with (1 + z * N) by lia.
    rewrite Z_mod_plus_full. apply Z.mod_1_l; lia.
  - unfold rep in Rg. fold R in Rg. destruct Rg as [j Hj].
    set (y := a ^ Z.pos u) in *.
    apply Z.divide_1_r_nonneg; [apply Z.gcd_nonneg|].
    cut (Z.gcd (y mod N - 1) N | Z.gcd (Z.of_N g - R) N)%Z; [rewrite Hg; trivial|].
    apply Z.gcd_greatest; [|apply Z.gcd_divide_r].
    destruct (Z.gcd_divide_l (y mod N - 1) N) as [c1 H1].
    destruct (Z.gcd_divide_r (y mod N - 1) N) as [c2 H2].
    set (G := Z.gcd (y mod N - 1) N) in *.
    pose proof (Z.div_mod y N ltac:(lia)) as Ey.
    exists (j * c2 + R * (c1 + c2 * (y / N))).
    assert (Eg' : Z.of_N g = j * N + R * y) by lia.
    assert (E3 : c1 * G = y mod N - 1) by lia. assert (E4 : c2 * G = N) by lia.
    transitivity (j * (c2 * G) + R * (c1 * G + (c2 * G) * (y / N))); [|ring].
    rewrite E3, E4, Eg'. lia.
Qed.

Definition pock_ok (k : nat) (N : Z) (c : list (Z * Z * Z)) : bool :=
  (1 <? N) && Z.odd N && forallb (pock_entry_ok k N) c && (N <? cert_factor c ^ 2)
  && pairwise_distinct (map (fun e => fst (fst e)) c).

Theorem pocklington_check k N c :
  pock_ok k N c = true -> (forall q l a, In (q, l, a) c -> prime q) -> prime N.
Proof.
  unfold pock_ok. rewrite !andb_true_iff. intros [[[[H1 Ho] He] HF] Hd] Hp.
  apply Z.ltb_lt in H1. apply Z.ltb_lt in HF. rewrite forallb_forall in He.
  apply (pocklington N c); try assumption.
  intros e Hin. apply (pock_entry_ok_sound k); [assumption|assumption|apply He; assumption].
Qed.
