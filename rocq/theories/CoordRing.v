(** The coordinate ring F[X,Y]/(Y^2 - X^3 - b) of a short Weierstrass curve and the ideals of its points:
    adding points multiplies their ideals up to principal factors, and the ideal of a finite point is
    never principal (Weierstrass.v draws the group law from this). *)
From mathcomp Require Import ssreflect ssrfun ssrbool eqtype ssrnat seq choice ssralg poly.
From Coq Require Import Ring.
From Verif Require Import Ideals.
Import GRing.Theory.

Section Coord.
  Variables (F : fieldType) (b : F).
  Local Open Scope ring_scope.
  Notation P := {poly F}.
  Definition psub (x y : P) : P := x - y.
  Lemma poly_ring : ring_theory (0 : P) (1 : P) +%R *%R psub -%R (@eq P).
  Proof.
    split; [exact: add0r|exact: addrC|exact: addrA|exact: mul1r|exact: mulrC|exact: mulrA|exact: mulrDl|by []|exact: subrr].
  Qed.

  Definition fsub (x y : F) : F := x - y.
  Lemma field_ring : ring_theory (0 : F) (1 : F) +%R *%R fsub -%R (@eq F).
  Proof.
    split; [exact: add0r|exact: addrC|exact: addrA|exact: mul1r|exact: mulrC|exact: mulrA|exact: mulrDl|by []|exact: subrr].
  Qed.

  Definition cub : P := 'X * ('X * 'X) + b%:P.
  Definition cr := (P * P)%type.
  Definition c0 : cr := quad0 P 0.
  Definition c1 : cr := quad1 P 0 1.
  Definition cadd : cr -> cr -> cr := quad_add P +%R.
  Definition cmul : cr -> cr -> cr := quad_mul P +%R *%R cub.
  Definition csub : cr -> cr -> cr := quad_sub P psub.
  Definition copp : cr -> cr := quad_opp P -%R.
  Definition inj : P -> cr := quad_in P 0.
  Definition Y : cr := quad_y P 0 1.
  Definition norm : cr -> P := quad_norm P *%R psub cub.
  Definition conj : cr -> cr := quad_conj P -%R.
  Lemma cr_ring : ring_theory c0 c1 cadd cmul csub copp (@eq cr).
  Proof. exact: quad_ring poly_ring _. Qed.
  Add Ring CR : cr_ring.
  Notation "u |+| v" := (cadd u v) (at level 50, left associativity).
  Notation "u |-| v" := (csub u v) (at level 50, left associativity).
  Notation "u |*| v" := (cmul u v) (at level 40, left associativity).
  Lemma inj_add p q : inj (p + q) = inj p |+| inj q. Proof. exact: quad_in_add poly_ring _ _. Qed.
  Lemma inj_mul p q : inj (p * q) = inj p |*| inj q. Proof. exact: quad_in_mul poly_ring _ _ _. Qed.
  Lemma inj_opp p : inj (- p) = copp (inj p). Proof. exact: quad_in_opp poly_ring _. Qed.
  Lemma inj_sub p q : inj (p - q) = inj p |-| inj q. Proof. exact: quad_in_sub poly_ring _ _. Qed.
  Lemma Y_sq : Y |*| Y = inj cub. Proof. exact: quad_y_sq poly_ring _. Qed.
  Lemma cr_split (u : cr) : u = inj u.1 |+| inj u.2 |*| Y. Proof. exact: quad_split poly_ring _ _. Qed.
  Lemma norm_conj u : u |*| conj u = inj (norm u). Proof. exact: quad_conj_mul poly_ring _ _. Qed.
  Lemma norm_mul u v : norm (u |*| v) = norm u * norm v. Proof. exact: quad_norm_mul poly_ring _ _ _. Qed.
  Lemma norm_0 : norm c0 = 0. Proof. exact: quad_norm_0 poly_ring _. Qed.

  (** ** The norm has degree at least three unless the element is a polynomial in X *)
  Lemma size_cub : size cub = 4%N.
  Proof.
    rewrite /cub size_addl -?expr2 -?exprS size_polyXn //. by rewrite (leq_ltn_trans (size_polyC_leq1 _)).
  Qed.
  Lemma cub_neq0 : cub != 0. Proof. by rewrite -size_poly_eq0 size_cub. Qed.
  Lemma size_sq (p : P) : p != 0 -> size (p * p) = (2 * (size p).-1).+1.
  Proof.
    move=> Hp. rewrite size_mul //. have := Hp. rewrite -size_poly_gt0. case: (size p) => // n _.
    by rewrite addSn addnS /= mul2n addnn.
  Qed.
  Lemma size_sq_cub (q : P) : q != 0 -> size (q * q * cub) = (2 * (size q).-1 + 4)%N.
  Proof. move=> Hq. by rewrite size_mul ?cub_neq0 ?mulf_neq0 // size_sq // size_cub addSn. Qed.
  Lemma size_norm p q : q != 0 -> (4 <= size (norm (p, q)))%N.
  Proof.
    move=> Hq. rewrite /norm /quad_norm /psub /=. have Sq := size_sq_cub q Hq.
    case: (eqVneq p 0) => [->|Hp].
    - by rewrite mul0r sub0r size_opp Sq leq_addl.
    - have Sp := size_sq p Hp.
      case: (ltngtP (size (p * p)) (size (q * q * cub))) => H.
      + by rewrite addrC size_addl size_opp // Sq leq_addl.
      + rewrite size_addl ?size_opp //. rewrite Sq in H. apply: leq_trans (ltnW H). by rewrite leq_addl.
      + exfalso. move: H. rewrite Sp Sq => /(congr1 odd). by rewrite !mul2n oddS oddD !odd_double.
  Qed.
  Lemma norm_inj p : norm (inj p) = p * p.
  Proof. by rewrite /norm /quad_norm /psub /= !mul0r subr0. Qed.
  Lemma norm_eq0 u : norm u = 0 -> u = c0.
  Proof.
    case: u => p q H. case: (eqVneq q 0) => [Eq|Hq].
    - move: H; rewrite Eq. change (norm (inj p) = 0 -> (p, 0 : P) = c0). rewrite norm_inj => /eqP.
      by rewrite mulf_eq0 orbb => /eqP ->.
    - have := size_norm p q Hq. by rewrite H size_poly0.
  Qed.
  Lemma cr_domain u v : u |*| v = c0 -> u <> c0 -> v = c0.
  Proof.
    move=> H Hu. have := norm_mul u v. rewrite H norm_0 => /esym/eqP. rewrite mulf_eq0 => /orP [] /eqP /norm_eq0 //.
  Qed.
  Lemma cr_nontrivial : c1 <> c0.
  Proof. move=> E. have /eqP := congr1 fst E. by rewrite /= oner_eq0. Qed.

  (** ** Constants and the abscissa *)
  Definition K (x : F) : cr := inj x%:P.
  Definition X : cr := inj 'X.
  Lemma K_add x y : K (x + y) = K x |+| K y. Proof. by rewrite /K polyCD inj_add. Qed.
  Lemma K_mul x y : K (x * y) = K x |*| K y. Proof. by rewrite /K polyCM inj_mul. Qed.
  Lemma K_sub x y : K (x - y) = K x |-| K y. Proof. by rewrite /K polyCB inj_sub. Qed.
  Lemma K_0 : K 0 = c0. Proof. by rewrite /K polyC0. Qed.
  Lemma K_1 : K 1 = c1. Proof. by rewrite /K polyC1. Qed.
  Lemma K_inv x : x != 0 -> K x^-1 |*| K x = c1. Proof. move=> H. by rewrite -K_mul mulVf // K_1. Qed.
  Lemma inj_cub : inj cub = X |*| (X |*| X) |+| K b. Proof. by rewrite /cub inj_add !inj_mul. Qed.
  Lemma X_neq x : X |-| K x <> c0.
  Proof. rewrite /X /K -inj_sub => E. have /eqP := congr1 fst E. by rewrite /= polyXsubC_eq0. Qed.
  Lemma Y_neq p : Y |-| inj p <> c0.
  Proof. move=> E. have /eqP := congr1 snd E. by rewrite /= /psub subr0 oner_eq0. Qed.

  (** ** The ideal of a point *)
  Definition on (x y : F) := y * y = x * (x * x) + b.
  Definition ev (x y : F) (u : cr) : F := u.1.[x] + u.2.[x] * y.
  Definition pid (x y : F) : subset cr := fun u => ev x y u = 0.
  Lemma ev_add x y u v : ev x y (u |+| v) = ev x y u + ev x y v.
  Proof. rewrite /ev /= !hornerD mulrDl !addrA. congr (_ + _). by rewrite -!addrA [X in _ + X = _]addrC. Qed.
  Lemma cub_ev x y : on x y -> cub.[x] = y * y.
  Proof. move=> ->. by rewrite /cub hornerD !hornerM hornerX hornerC. Qed.
  Lemma ev_mul x y u v : on x y -> ev x y (u |*| v) = ev x y u * ev x y v.
  Proof.
    move=> H. move: (cub_ev _ _ H). rewrite /ev /cmul /quad_mul /=. move: cub => c Hc.
    rewrite !(hornerD, hornerM) Hc. exact: quad_eval field_ring _ _ _ _ _.
  Qed.
  Lemma ev_inj x y p : ev x y (inj p) = p.[x]. Proof. by rewrite /ev /= horner0 mul0r addr0. Qed.
  Lemma ev_K x y a : ev x y (K a) = a. Proof. by rewrite ev_inj hornerC. Qed.
  Lemma ev_X x y : ev x y X = x. Proof. by rewrite ev_inj hornerX. Qed.
  Lemma ev_Y x y : ev x y Y = y. Proof. by rewrite /ev /= horner0 hornerC mul1r add0r. Qed.
  Lemma ev_opp x y u : ev x y (copp u) = - ev x y u.
  Proof. by rewrite /ev /= !hornerN mulNr opprD. Qed.
  Lemma ev_sub x y u v : ev x y (u |-| v) = ev x y u - ev x y v.
  Proof. have -> : u |-| v = u |+| copp v by ring. by rewrite ev_add ev_opp. Qed.
  Lemma ev_c0 x y : ev x y c0 = 0. Proof. by rewrite -K_0 ev_K. Qed.

  Lemma pid_ideal x y : on x y -> ideal cr c0 cadd cmul (pid x y).
  Proof.
    move=> H. split; [exact: ev_c0|split].
    - move=> u v Hu Hv. by rewrite /pid ev_add Hu Hv addr0.
    - move=> a u Hu. by rewrite /pid ev_mul // Hu mulr0.
  Qed.
  Lemma pid_gen x y u : pid x y u -> exists v w, u = (X |-| K x) |*| v |+| (Y |-| K y) |*| w.
  Proof.
    rewrite /pid /ev => H. have R : root (u.1 + u.2 * y%:P) x by rewrite /root hornerD hornerM hornerC H.
    move/factor_theorem: R => [q Eq]. exists (inj q), (inj u.2). rewrite {1}(cr_split u).
    have -> : inj u.1 = inj q |*| (X |-| K x) |-| inj u.2 |*| K y.
    { rewrite /X /K -inj_sub -inj_mul -Eq inj_add inj_mul. ring. }
    ring.
  Qed.

  Notation prod := (prod cr c0 cadd cmul).
  Notation equiv := (equiv cr c0 cmul).

  (** The line through a point with slope [l], and its reflection. *)
  Definition line (l x1 y1 : F) : cr := K y1 |+| K l |*| (X |-| K x1).
  Lemma line_neq l x1 y1 : Y |-| line l x1 y1 <> c0.
  Proof. rewrite /line /K /X -inj_sub -inj_mul -inj_add. exact: Y_neq. Qed.
  Lemma line_cuts l x1 y1 x2 x3 :
    on x1 y1 -> x3 = l * l - x1 - x2 ->
    l * (l * x1 - y1) + l * (l * x1 - y1) = x1 * x2 + x1 * x3 + x2 * x3 ->
    (Y |-| line l x1 y1) |*| (Y |+| line l x1 y1) = (X |-| K x1) |*| (X |-| K x2) |*| (X |-| K x3).
  Proof.
    move=> H1 H3 He.
    have Kb : K b = K y1 |*| K y1 |-| K x1 |*| (K x1 |*| K x1).
    { rewrite -!K_mul -K_sub. congr K. by rewrite H1 addrC addKr. }
    have K3 : K x3 = K l |*| K l |-| K x1 |-| K x2 by rewrite H3 !K_sub K_mul.
    have E0 : K l |*| (K l |*| K x1 |-| K y1) |+| K l |*| (K l |*| K x1 |-| K y1)
              |-| (K x1 |*| K x2 |+| K x1 |*| K x3 |+| K x2 |*| K x3) = c0.
    { rewrite -!K_mul -K_sub -!K_mul -!K_add He -K_sub subrr. exact: K_0. }
    transitivity (Y |*| Y |-| line l x1 y1 |*| line l x1 y1); first ring.
    rewrite Y_sq inj_cub Kb.
    set A := _ |-| _. set B := _ |*| _ |*| _.
    have D : A |-| B = (K l |*| (K l |*| K x1 |-| K y1) |+| K l |*| (K l |*| K x1 |-| K y1)
              |-| (K x1 |*| K x2 |+| K x1 |*| K x3 |+| K x2 |*| K x3)) |*| (X |-| K x1).
    { rewrite /A /B /line K3. ring. }
    rewrite E0 in D. transitivity (B |+| (A |-| B)); [ring|rewrite D; ring].
  Qed.

  Lemma pid_line l x1 y1 x y u : y = y1 + l * (x - x1) -> pid x y u ->
    exists v w, u = (X |-| K x) |*| v |+| (Y |-| line l x1 y1) |*| w.
  Proof.
    move=> E /pid_gen [v [w ->]]. exists (v |+| K l |*| w), w.
    rewrite E /line K_add K_mul K_sub. ring.
  Qed.
  Lemma pid_reflected l x1 y1 x y u : y = l * (x1 - x) - y1 -> pid x y u ->
    exists v w, u = (X |-| K x) |*| v |+| (Y |+| line l x1 y1) |*| w.
  Proof.
    move=> E /pid_gen [v [w ->]]. exists (v |-| K l |*| w), w.
    rewrite E /line K_sub K_mul K_sub. ring.
  Qed.
  Lemma pid_abscissa x y : pid x y (X |-| K x).
  Proof. by rewrite /pid ev_sub ev_X ev_K subrr. Qed.
  Lemma ev_line x y l x1 y1 : on x y -> ev x y (line l x1 y1) = y1 + l * (x - x1).
  Proof. move=> H. by rewrite /line ev_add ev_mul // ev_sub !ev_K ev_X. Qed.
  Lemma pid_on_line l x1 y1 x y : on x y -> y = y1 + l * (x - x1) -> pid x y (Y |-| line l x1 y1).
  Proof. move=> H E. by rewrite /pid ev_sub ev_Y ev_line // -E subrr. Qed.
  Lemma pid_on_reflected l x1 y1 x y : on x y -> y = l * (x1 - x) - y1 -> pid x y (Y |+| line l x1 y1).
  Proof.
    move=> H E. rewrite /pid ev_add ev_Y ev_line // {1}E -{1}(opprB x x1) mulrN.
    by rewrite addrA -(addrA (- _)) addNr addr0 addNr.
  Qed.

  (** ** Adding two points with different abscissae *)
  Lemma pid_add l x1 y1 x2 y2 x3 y3 :
    on x1 y1 -> on x2 y2 -> on x3 y3 -> x1 != x2 -> y2 = y1 + l * (x2 - x1) -> x3 = l * l - x1 - x2 ->
    y3 = l * (x1 - x3) - y1 ->
    l * (l * x1 - y1) + l * (l * x1 - y1) = x1 * x2 + x1 * x3 + x2 * x3 ->
    equiv (prod (pid x1 y1) (pid x2 y2)) (pid x3 y3).
  Proof.
    move=> H1 H2 H3 Hx E2 E3 Ey3 He.
    have Hy1 : y1 = y1 + l * (x1 - x1) by rewrite subrr mulr0 addr0.
    apply: (line_ideals _ _ _ _ _ _ _ cr_ring _ _ _ (X |-| K x1) (X |-| K x2) (X |-| K x3)
      (Y |-| line l x1 y1) (Y |+| line l x1 y1)); try exact: pid_ideal; try exact: X_neq; try exact: line_neq;
      try exact: pid_abscissa.
    - exact: pid_on_reflected.
    - have Hd : x1 - x2 != 0 by rewrite subr_eq0.
      have -> : Y |-| line l x1 y1 =
        (K (x1 - x2)^-1 |*| (Y |-| line l x1 y1)) |*| (X |-| K x2)
        |+| (copp (K (x1 - x2)^-1) |*| (X |-| K x1)) |*| (Y |-| line l x1 y1).
      { transitivity ((K (x1 - x2)^-1 |*| (K x1 |-| K x2)) |*| (Y |-| line l x1 y1)); last ring.
        rewrite -K_sub K_inv //. ring. }
      apply: (prod_add _ _ _ _ _ _ _ cr_ring); apply: (prod_one _ _ _ _ _ _ _ cr_ring).
      + apply: (proj2 (proj2 (pid_ideal _ _ H1))). exact: pid_on_line.
      + exact: pid_abscissa.
      + apply: (proj2 (proj2 (pid_ideal _ _ H1))). exact: pid_abscissa.
      + exact: pid_on_line.
    - move=> u. exact: pid_line.
    - move=> u. exact: pid_line.
    - move=> u. exact: pid_reflected.
    - exact: line_cuts.
  Qed.
  (** ** Doubling a point off the axis *)
  Lemma pid_double l x1 y1 x3 y3 :
    on x1 y1 -> on x3 y3 -> y1 + y1 != 0 -> x3 = l * l - x1 - x1 -> y3 = l * (x1 - x3) - y1 ->
    l * (l * x1 - y1) + l * (l * x1 - y1) = x1 * x1 + x1 * x3 + x1 * x3 ->
    equiv (prod (pid x1 y1) (pid x1 y1)) (pid x3 y3).
  Proof.
    move=> H1 H3 Hy E3 Ey3 He.
    have Hy1 : y1 = y1 + l * (x1 - x1) by rewrite subrr mulr0 addr0.
    have Hcut := line_cuts _ _ _ _ _ H1 E3 He.
    apply: (line_ideals _ _ _ _ _ _ _ cr_ring _ _ _ (X |-| K x1) (X |-| K x1) (X |-| K x3)
      (Y |-| line l x1 y1) (Y |+| line l x1 y1)); try exact: pid_ideal; try exact: X_neq; try exact: line_neq;
      try exact: pid_abscissa.
    - exact: pid_on_reflected.
    - set L := Y |-| line l x1 y1. set A := X |-| K x1.
      have -> : L = (K (y1 + y1)^-1 |*| (X |-| K x3) |*| A) |*| A
        |+| ((copp (K (y1 + y1)^-1) |*| L) |*| L |+| (copp (K (y1 + y1)^-1 |*| (K l |+| K l)) |*| A) |*| L).
      { transitivity (K (y1 + y1)^-1 |*| (K y1 |+| K y1) |*| L).
        { rewrite -K_add K_inv //. ring. }
        transitivity (K (y1 + y1)^-1 |*| ((A |*| A |*| (X |-| K x3)) |-| L |*| L |-| (K l |+| K l) |*| A |*| L)); last ring.
        rewrite /A -Hcut /L /line. ring. }
      have HL : pid x1 y1 L by exact: pid_on_line.
      have HA : pid x1 y1 A by exact: pid_abscissa.
      have Hm := proj2 (proj2 (pid_ideal _ _ H1)).
      apply: (prod_add _ _ _ _ _ _ _ cr_ring); [|apply: (prod_add _ _ _ _ _ _ _ cr_ring)];
        apply: (prod_one _ _ _ _ _ _ _ cr_ring) => //; by apply: Hm.
    - move=> u. exact: pid_line.
    - move=> u. exact: pid_line.
    - move=> u. exact: pid_reflected.
    - exact: Hcut.
  Qed.
  (** ** Opposite points *)
  Lemma pid_opposite x y :
    on x y -> (y + y != 0) || (x * x + x * x + x * x != 0) ->
    equiv (prod (pid x y) (pid x (- y))) (whole cr).
  Proof.
    move=> H Hns.
    have H' : on x (- y) by rewrite /on mulrNN.
    have Kb : K b = K y |*| K y |-| K x |*| (K x |*| K x).
    { rewrite -!K_mul -K_sub. congr K. by rewrite H addrC addKr. }
    have Kn : K (- y) = copp (K y) by rewrite -(sub0r y) K_sub K_0; ring.
    have E : (Y |-| K y) |*| (Y |+| K y) = (X |-| K x) |*| (X |*| X |+| K x |*| X |+| K x |*| K x).
    { transitivity (Y |*| Y |-| K y |*| K y); first ring. rewrite Y_sq inj_cub Kb. ring. }
    apply: (opposite_ideals _ _ _ _ _ _ _ cr_ring cr_nontrivial _ _ (X |-| K x) (Y |-| K y) (Y |+| K y)
      (X |*| X |+| K x |*| X |+| K x |*| K x)) => //.
    - exact: pid_ideal.
    - exact: X_neq.
    - exact: pid_gen.
    - move=> u /pid_gen. rewrite Kn. move=> [v [w ->]]. exists v, w. ring.
    - have HA : pid x y (X |-| K x) by exact: pid_abscissa.
      have HA' : pid x (- y) (X |-| K x) by exact: pid_abscissa.
      have HL : pid x y (Y |-| K y) by rewrite /pid ev_sub ev_Y ev_K subrr.
      have HL' : pid x (- y) (Y |+| K y) by rewrite /pid ev_add ev_Y ev_K addNr.
      have Hm := proj2 (proj2 (pid_ideal _ _ H)).
      case/boolP: (y + y == 0) Hns => [/eqP Hy /= Hx|Hy _].
      + set k := x * x + x * x + x * x in Hx.
        have Hk : K k = K x |*| K x |+| K x |*| K x |+| K x |*| K x by rewrite /k !K_add !K_mul.
        have Y0 : K y |+| K y = c0 by rewrite -K_add Hy K_0.
        have -> : X |-| K x = (K k^-1 |*| (Y |-| K y)) |*| (Y |+| K y)
          |+| (copp (K k^-1) |*| (X |+| K x |+| K x) |*| (X |-| K x)) |*| (X |-| K x).
        { transitivity (K k^-1 |*| K k |*| (X |-| K x)); first by rewrite K_inv //; ring.
          transitivity (K k^-1 |*| ((Y |-| K y) |*| (Y |+| K y)) |-| K k^-1 |*| (X |+| K x |+| K x) |*| (X |-| K x) |*| (X |-| K x)); last ring.
          rewrite E Hk. ring. }
        apply: (prod_add _ _ _ _ _ _ _ cr_ring); apply: (prod_one _ _ _ _ _ _ _ cr_ring) => //; by apply: Hm.
      + have -> : X |-| K x = (K (y + y)^-1 |*| (X |-| K x)) |*| (Y |+| K y)
          |+| (copp (K (y + y)^-1) |*| (Y |-| K y)) |*| (X |-| K x).
        { transitivity (K (y + y)^-1 |*| (K y |+| K y) |*| (X |-| K x)); last ring.
          rewrite -K_add K_inv //. ring. }
        apply: (prod_add _ _ _ _ _ _ _ cr_ring); apply: (prod_one _ _ _ _ _ _ _ cr_ring) => //; by apply: Hm.
  Qed.
  (** ** The ideal of a finite point is not principal *)
  Lemma pid_not_principal x y : on x y -> equiv (pid x y) (whole cr) -> False.
  Proof.
    move=> H /(equiv_whole _ _ _ _ _ _ _ cr_ring cr_domain) [h [Hh Hgen]].
    have [u Eu] := Hgen _ (pid_abscissa x y).
    have HY : pid x y (Y |-| K y) by rewrite /pid ev_sub ev_Y ev_K subrr.
    have [v Ev] := Hgen _ HY.
    have N : ('X - x%:P) * ('X - x%:P) = norm h * norm u.
    { rewrite -norm_mul -Eu /X /K -inj_sub norm_inj. done. }
    have Nz : norm h * norm u != 0 by rewrite -N mulf_neq0 // polyXsubC_eq0.
    have Hh0 : norm h != 0 by apply: contraNneq Nz => ->; rewrite mul0r.
    have Hu0 : norm u != 0 by apply: contraNneq Nz => ->; rewrite mulr0.
    have Sz : size (norm h * norm u) = 3%N by rewrite -N size_mul ?polyXsubC_eq0 // size_XsubC.
    have Su : (0 < size (norm u))%N by rewrite size_poly_gt0.
    rewrite size_mul // in Sz.
    case: h Hh Hgen Eu Ev N Nz Hh0 Sz => p q Hh Hgen Eu Ev N Nz Hh0 Sz.
    case: (eqVneq q 0) => [Eq|Hq]; last first.
    { have G := size_norm p q Hq. move: Sz Su. case: (size (norm u)) => [//|n]. rewrite addnS /= => Sz _.
      have := leq_trans G (leq_addr n _). by rewrite Sz. }
    rewrite Eq in Ev Hh. have Evy := congr1 snd Ev. move: Evy. rewrite /= /psub subr0 mul0r addr0 => Evy.
    have Hp : p != 0 by apply/eqP => Z; move/eqP: Evy; rewrite Z mul0r oner_eq0.
    have Hv : v.2 != 0 by apply/eqP => Z; move/eqP: Evy; rewrite Z mulr0 oner_eq0.
    have := congr1 (fun p : P => size p) Evy. rewrite /= size_poly1 size_mul //.
    have := Hp. rewrite -size_poly_gt0. have := Hv. rewrite -size_poly_gt0.
    case Ep: (size p) => [//|[|n]]; case: (size v.2) => [//|m] _ _; last by rewrite addnS /= addSn.
    move/eqP: Ep => /size_poly1P [a Ha Ea] _.
    move: Hh. rewrite /pid /ev /= Ea hornerC horner0 mul0r addr0 => Z. by rewrite Z eqxx in Ha.
  Qed.
End Coord.
