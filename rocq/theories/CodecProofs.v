(** Proofs about serialisation (C30). *)
From Coq Require Import Field.
From Verif Require Import Base Constants Field Curve BlsModel BitsModel BitsProofs BatchProofs EncodingModel EncodingProofs PointModel PointProofs HashCurveSpec CodecSpec HashCurveProofs CodecModel.

(** ** prime fields *)
Lemma le_bytes_snoc n v : le_bytes (S n) v = le_bytes n v ++ [v / 256 ^ Z.of_nat n mod 256].
Proof.
  revert v. induction n as [|n IH]; intros v.
  - cbn [le_bytes app]. change (256 ^ Z.of_nat 0) with 1. rewrite Z.div_1_r. reflexivity.
  - cbn [le_bytes app] in *. f_equal. rewrite IH. do 3 f_equal. rewrite Nat2Z.inj_succ, Z.pow_succ_r by lia.
    apply Z.div_div; [lia|]. apply Z.pow_pos_nonneg; lia.
Qed.
Lemma le_bytes_number l : is_bytes l = true -> le_bytes (length l) (number l) = l.
Proof.
  induction l as [|b l IH]; intros H; [reflexivity|]. cbn [is_bytes forallb] in H. apply andb_true_iff in H. destruct H as [Hb H].
  unfold is_byte in Hb. cbn [length number le_bytes]. f_equal.
  - rewrite (Z.mul_comm 256), Z.mod_add by lia. apply Z.mod_small. lia.
  - rewrite (Z.mul_comm 256), Z.div_add, Z.div_small by lia. cbn [Z.add]. apply IH, H.
Qed.
Lemma or_last_snoc l b m : or_last (l ++ [b]) m = l ++ [Z.lor b m].
Proof.
  unfold or_last. rewrite app_length. cbn [length]. replace (length l + 1 - 1)%nat with (length l) by lia.
  rewrite firstn_app, skipn_app, Nat.sub_diag, firstn_O, skipn_O, app_nil_r, firstn_all, skipn_all. reflexivity.
Qed.

(** 48 bytes with flags: the writer is the little-endian form of [v + 2^382 * tag]. *)
Definition tag (f : sw_flags) : Z := match f with NegY => 0 | Infinity => 1 | PosY => 2 end.
Lemma number_le_bytes n v : number (le_bytes n v) = v mod 256 ^ Z.of_nat n.
Proof. apply le_bytes_val. Qed.
Lemma number_inj l l' : is_bytes l = true -> is_bytes l' = true -> length l = length l' -> number l = number l' -> l = l'.
Proof. exact (le_val_inj l l'). Qed.
Lemma p_bits : p < 2 ^ 377. Proof. reflexivity. Qed.
Lemma tag_range f : 0 <= tag f < 4. Proof. destruct f; cbn; lia. Qed.
Lemma small_tag v f : 0 <= v < p -> 0 <= v + 2 ^ 382 * tag f < 2 ^ 384.
Proof.
  intros H. pose proof (tag_range f). pose proof p_bits. change (2 ^ 384) with (2 ^ 382 * 4).
  assert (2 ^ 377 < 2 ^ 382) by reflexivity. nia.
Qed.
Lemma fq_write_flags v f : 0 <= v < p -> fp_write 48 v (sw_u8_bitmask f) = le_bytes 48 (v + 2 ^ 382 * tag f).
Proof.
  intros Hv. unfold fp_write. rewrite (le_bytes_snoc 47 v), or_last_snoc.
  change (256 ^ Z.of_nat 47) with (2 ^ 376).
  assert (Hd : 0 <= v / 2 ^ 376 < 2).
  { split; [apply Z.div_pos; lia|]. apply Z.div_lt_upper_bound; [lia|]. change (2 ^ 376 * 2) with (2 ^ 377).
    pose proof p_bits. lia. }
  rewrite (Z.mod_small (v / 2 ^ 376)) by lia.
  set (b := Z.lor _ _). assert (Hb : b = v / 2 ^ 376 + 64 * tag f).
  { unfold b. assert (v / 2 ^ 376 = 0 \/ v / 2 ^ 376 = 1) as [-> | ->] by lia; destruct f; reflexivity. }
  pose proof (tag_range f) as Ht.
  apply number_inj.
  - rewrite is_bytes_app, le_bytes_is_bytes. cbn [is_bytes forallb andb]. unfold is_byte. lia.
  - apply le_bytes_is_bytes.
  - rewrite app_length, !le_bytes_length. reflexivity.
  - rewrite number_app, !number_le_bytes, le_bytes_length. cbn [number]. rewrite Hb.
    change (256 ^ Z.of_nat 48) with (2 ^ 384). rewrite (Z.mod_small (v + _)) by (apply small_tag, Hv).
    change (256 ^ Z.of_nat 47) with (2 ^ 376). pose proof (Z.div_mod v (2 ^ 376) ltac:(lia)) as D.
    change (2 ^ 382) with (2 ^ 376 * 64). lia.
Qed.
Lemma fq_write_none v : 0 <= v < p -> fp_write 48 v 0 = le_bytes 48 v.
Proof. intros H. change 0 with (sw_u8_bitmask NegY) at 1. rewrite fq_write_flags by exact H. f_equal. cbn [tag]. lia. Qed.

(** the reader, on numbers *)
Lemma strip_flags b : is_byte b = true -> forall f, sw_from_u8 b = Some f ->
  Z.land b (255 - sw_u8_bitmask f) = b mod 2 ^ 6 /\ b / 2 ^ 6 = tag f.
Proof.
  intros Hb.
  assert (H : match sw_from_u8 b with None => true | Some f => (Z.land b (255 - sw_u8_bitmask f) =? b mod 2 ^ 6) && (b / 2 ^ 6 =? tag f) end = true).
  { revert b Hb. apply (bytes_case (fun b => match sw_from_u8 b with None => true | Some f => (Z.land b (255 - sw_u8_bitmask f) =? b mod 2 ^ 6) && (b / 2 ^ 6 =? tag f) end)).
    vm_compute. reflexivity. }
  intros f E. rewrite E in H. lia.
Qed.
Lemma sw_tag b f : is_byte b = true -> b / 2 ^ 6 = tag f -> sw_from_u8 b = Some f.
Proof.
  intros Hb.
  assert (H : forallb (fun f => implb (b / 2 ^ 6 =? tag f) match sw_from_u8 b with Some f' => tag f =? tag f' | None => false end) [Infinity; PosY; NegY] = true).
  { revert b Hb. apply (bytes_case (fun b => forallb (fun f => implb (b / 2 ^ 6 =? tag f) match sw_from_u8 b with Some f' => tag f =? tag f' | None => false end) [Infinity; PosY; NegY])).
    vm_compute. reflexivity. }
  intros E. rewrite forallb_forall in H. assert (I : In f [Infinity; PosY; NegY]) by (destruct f; cbn; auto).
  specialize (H f I). apply Z.eqb_eq in E. rewrite E in H. cbn [implb] in H. destruct (sw_from_u8 b) as [f'|]; [|discriminate].
  apply Z.eqb_eq in H. destruct f, f'; try discriminate; reflexivity.
Qed.

Lemma split48 (l : bytes) : is_bytes l = true -> (48 <= length l)%nat ->
  exists (l0 : bytes) (b : byte) (rest : bytes), l = (l0 ++ [b]) ++ rest /\ form48 (l0 ++ [b]) l0 b /\ rest = skipn 48 l.
Proof.
  intros Hb Hl. assert (H48 : length (firstn 48 l) = 48%nat) by (rewrite firstn_length; lia).
  destruct (form48_exists _ H48 (is_bytes_firstn _ _ Hb)) as (l0 & b & F).
  exists l0, b, (skipn 48 l). pose proof (f48_eq _ _ _ F) as E.
  split; [|split; [|reflexivity]]; [|rewrite <- E at 1; exact F].
  rewrite <- (firstn_skipn 48 l) at 1. f_equal. exact E.
Qed.
Lemma fp_read_flags_form (l0 : bytes) (b : byte) (rest : bytes) : form48 (l0 ++ [b]) l0 b ->
  fp_read_flags p 48 ((l0 ++ [b]) ++ rest) =
  match sw_from_u8 b with
  | None => None
  | Some f => let v := number l0 + 2 ^ 376 * (b mod 2 ^ 6) in if v <? p then Some (v, f, rest) else None
  end.
Proof.
  intros F. pose proof (f48_len _ _ _ F) as H0. unfold fp_read_flags.
  assert (HL : length ((l0 ++ [b]) ++ rest) = (48 + length rest)%nat) by (rewrite !app_length; cbn [length]; lia).
  destruct (Nat.ltb_spec (length ((l0 ++ [b]) ++ rest)) 48); [lia|]. cbn [Nat.sub].
  assert (HN : nth 47 ((l0 ++ [b]) ++ rest) 0 = b).
  { rewrite app_nth1 by (rewrite app_length; cbn [length]; lia). rewrite app_nth2, H0 by lia. reflexivity. }
  rewrite HN. destruct (sw_from_u8 b) as [f|] eqn:E; [|reflexivity].
  destruct (strip_flags b (f48_byte _ _ _ F) f E) as [-> _].
  assert (H47 : firstn 47 ((l0 ++ [b]) ++ rest) = l0).
  { rewrite <- app_assoc, firstn_app, H0, Nat.sub_diag, firstn_O, app_nil_r. apply firstn_all2. lia. }
  rewrite H47.
  assert (HS : skipn 48 ((l0 ++ [b]) ++ rest) = rest).
  { rewrite skipn_app, skipn_all2 by (rewrite app_length; cbn [length]; lia). rewrite app_length, H0. cbn [length app]. reflexivity. }
  rewrite HS. rewrite <- number_le_val, number_app, H0. change (256 ^ Z.of_nat 47) with (2 ^ 376). cbn [number].
  replace (b mod 2 ^ 6 + 256 * 0) with (b mod 2 ^ 6) by lia. reflexivity.
Qed.

Lemma fq_read_flags_canonical l x f rest : is_bytes l = true ->
  fq_read_flags l = Some (x, f, rest) -> l = fq_write x (sw_u8_bitmask f) ++ rest.
Proof.
  intros Hb H. unfold fq_read_flags in H.
  destruct (Nat.lt_ge_cases (length l) 48) as [Hl|Hl].
  { unfold fp_read_flags in H. destruct (Nat.ltb_spec (length l) 48); [discriminate|lia]. }
  destruct (split48 l Hb Hl) as (l0 & b & rest' & -> & F & Hr). rewrite (fp_read_flags_form l0 b rest' F) in H.
  destruct (sw_from_u8 b) as [f'|] eqn:E; [|discriminate]. cbv zeta in H. set (v := number l0 + 2 ^ 376 * (b mod 2 ^ 6)) in *.
  destruct (Z.ltb_spec v p) as [Hp|Hp]; [|discriminate]. injection H as <- <- <-. f_equal.
  destruct (strip_flags b (f48_byte _ _ _ F) f' E) as [_ Ht].
  pose proof (Z.mod_pos_bound b (2 ^ 6) ltac:(lia)) as Hm. pose proof (f48_low _ _ _ F) as Hlow.
  assert (Hv : 0 <= v < p) by (unfold v in *; lia).
  unfold fq_write. rewrite fqv_of_small by exact Hv. rewrite fq_write_flags by exact Hv.
  assert (EN : number (l0 ++ [b]) = v + 2 ^ 382 * tag f').
  { rewrite (form48_number _ _ _ F), <- Ht. unfold v. pose proof (Z.div_mod b (2 ^ 6) ltac:(lia)) as D.
    change (2 ^ 382) with (2 ^ 376 * 2 ^ 6). lia. }
  rewrite <- EN. replace 48%nat with (length (l0 ++ [b])) by (rewrite app_length, (f48_len _ _ _ F); reflexivity).
  symmetry. apply le_bytes_number.
  rewrite is_bytes_app in Hb. apply andb_true_iff in Hb. tauto.
Qed.
Lemma fq_write_form x f : exists (l0 : bytes) (b : byte), fq_write x (sw_u8_bitmask f) = l0 ++ [b] /\ form48 (l0 ++ [b]) l0 b /\
  b / 2 ^ 6 = tag f /\ number l0 + 2 ^ 376 * (b mod 2 ^ 6) = fqv x.
Proof.
  pose proof (fqv_range x) as Hx. unfold fq_write. rewrite fq_write_flags by exact Hx.
  set (v := fqv x + 2 ^ 382 * tag f). pose proof (small_tag _ f Hx) as Hv. fold v in Hv.
  destruct (form48_exists (le_bytes 48 v) (le_bytes_length _ _) (le_bytes_is_bytes _ _)) as (l0 & b & F).
  exists l0, b. pose proof (f48_eq _ _ _ F) as E. split; [exact E|]. split; [rewrite E in F; exact F|].
  pose proof (form48_number _ _ _ F) as EN. rewrite number_le_bytes in EN. change (256 ^ Z.of_nat 48) with (2 ^ 384) in EN.
  rewrite Z.mod_small in EN by exact Hv. pose proof (f48_low _ _ _ F) as Hlow. pose proof p_bits.
  assert (M : v mod 2 ^ 382 = fqv x).
  { unfold v. rewrite Z.mul_comm, Z.mod_add by lia. apply Z.mod_small. assert (2 ^ 377 < 2 ^ 382) by reflexivity. lia. }
  assert (D : v / 2 ^ 382 = tag f).
  { unfold v. rewrite Z.mul_comm, Z.div_add by lia. rewrite Z.div_small; [lia|]. assert (2 ^ 377 < 2 ^ 382) by reflexivity. lia. }
  split.
  - rewrite <- D, EN. change (2 ^ 382) with (2 ^ 376 * 2 ^ 6). rewrite <- Z.div_div by lia.
    rewrite (Z.mul_comm (2 ^ 376) b), Z.div_add, (Z.div_small (number l0)) by lia. reflexivity.
  - rewrite <- M, EN. symmetry. apply (mod_high _ _ 376 6); lia.
Qed.
Lemma fq_read_write_flags x f rest : fq_read_flags (fq_write x (sw_u8_bitmask f) ++ rest) = Some (x, f, rest).
Proof.
  destruct (fq_write_form x f) as (l0 & b & -> & F & Ht & Hv). unfold fq_read_flags.
  rewrite (fp_read_flags_form l0 b rest F), (sw_tag b f (f48_byte _ _ _ F) Ht). cbv zeta. rewrite Hv.
  pose proof (fqv_range x). destruct (Z.ltb_spec (fqv x) p); [|lia]. do 3 f_equal. apply fq_ext. rewrite fqv_of. apply fqv_mod.
Qed.
Lemma fq_write_length x m : length (fq_write x m) = 48%nat.
Proof.
  unfold fq_write, fp_write. rewrite (le_bytes_snoc 47), or_last_snoc, app_length, le_bytes_length. reflexivity.
Qed.
(** without flags *)
Lemma fp_read_write q n v rest : (0 < n)%nat -> 0 <= v < q -> q <= 256 ^ Z.of_nat n -> fp_read q n (le_bytes n v ++ rest) = Some (v, rest).
Proof.
  intros Hn Hv Hq. unfold fp_read. assert (HL : length (le_bytes n v ++ rest) = (n + length rest)%nat) by (rewrite app_length, le_bytes_length; reflexivity).
  destruct (Nat.ltb_spec (length (le_bytes n v ++ rest)) n); [lia|].
  rewrite firstn_app, skipn_app, le_bytes_length, Nat.sub_diag, firstn_O, skipn_O, app_nil_r.
  rewrite firstn_all2, skipn_all2 by (rewrite le_bytes_length; lia). rewrite le_bytes_val, Z.mod_small by lia.
  destruct (Z.ltb_spec v q); [reflexivity|lia].
Qed.
Lemma fp_read_canonical q n l v rest : is_bytes l = true -> fp_read q n l = Some (v, rest) -> 0 <= v < q /\ l = le_bytes n v ++ rest.
Proof.
  intros Hb. unfold fp_read. destruct (Nat.ltb_spec (length l) n); [discriminate|].
  rewrite <- number_le_val. destruct (Z.ltb_spec (number (firstn n l)) q); [|discriminate]. injection 1 as <- <-.
  pose proof (number_bound _ (is_bytes_firstn n _ Hb)). split; [lia|].
  rewrite <- (firstn_skipn n l) at 1. f_equal.
  replace n with (length (firstn n l)) at 2 by (rewrite firstn_length; lia). symmetry. apply le_bytes_number, is_bytes_firstn, Hb.
Qed.
Lemma fq_read_write x rest : fq_read (fq_write x 0 ++ rest) = Some (x, rest).
Proof.
  unfold fq_read, fq_write. pose proof (fqv_range x). rewrite fq_write_none, fp_read_write by (lia || (vm_compute; congruence)).
  do 2 f_equal. apply fq_ext. rewrite fqv_of. apply fqv_mod.
Qed.
Lemma fq_read_canonical l x rest : is_bytes l = true -> fq_read l = Some (x, rest) -> l = fq_write x 0 ++ rest.
Proof.
  intros Hb. unfold fq_read. destruct (fp_read p 48 l) as [[v rest']|] eqn:E; [|discriminate]. injection 1 as <- <-.
  apply fp_read_canonical in E; [|exact Hb]. destruct E as [Hv ->]. unfold fq_write. rewrite fqv_of_small, fq_write_none by exact Hv. reflexivity.
Qed.

(** ** quadratic extension *)
Lemma fq2_read_write_flags x f rest : fq2_read_flags (fq2_write x (sw_u8_bitmask f) ++ rest) = Some (x, f, rest).
Proof.
  unfold fq2_read_flags, fq2_write. rewrite <- app_assoc, fq_read_write, fq_read_write_flags. destruct x; reflexivity.
Qed.
Lemma fq2_read_flags_canonical l x f rest : is_bytes l = true ->
  fq2_read_flags l = Some (x, f, rest) -> l = fq2_write x (sw_u8_bitmask f) ++ rest.
Proof.
  intros Hb. unfold fq2_read_flags, fq2_write. destruct (fq_read l) as [[c0 l1]|] eqn:E; [|discriminate].
  apply fq_read_canonical in E; [|exact Hb]. subst l. rewrite is_bytes_app in Hb. apply andb_true_iff in Hb.
  destruct (fq_read_flags l1) as [[[c1 f'] rest']|] eqn:E1; [|discriminate]. injection 1 as <- <- <-.
  apply fq_read_flags_canonical in E1; [|tauto]. subst l1. cbn [fst snd]. rewrite <- app_assoc. reflexivity.
Qed.
Lemma fq2_read_write x rest : fq2_read (fq2_write x 0 ++ rest) = Some (x, rest).
Proof. unfold fq2_read, fq2_write. rewrite <- app_assoc, !fq_read_write. destruct x; reflexivity. Qed.
Lemma fq2_read_canonical l x rest : is_bytes l = true -> fq2_read l = Some (x, rest) -> l = fq2_write x 0 ++ rest.
Proof.
  intros Hb. unfold fq2_read, fq2_write. destruct (fq_read l) as [[c0 l1]|] eqn:E; [|discriminate].
  apply fq_read_canonical in E; [|exact Hb]. subst l. rewrite is_bytes_app in Hb. apply andb_true_iff in Hb.
  destruct (fq_read l1) as [[c1 rest']|] eqn:E1; [|discriminate]. injection 1 as <- <-.
  apply fq_read_canonical in E1; [|tauto]. subst l1. cbn [fst snd]. rewrite <- app_assoc. reflexivity.
Qed.
Lemma fq2_write_length x m : length (fq2_write x m) = 96%nat.
Proof. unfold fq2_write. rewrite app_length, !fq_write_length. reflexivity. Qed.

Lemma fq_write_is_bytes x f : is_bytes (fq_write x (sw_u8_bitmask f)) = true.
Proof. unfold fq_write. rewrite fq_write_flags by apply fqv_range. apply le_bytes_is_bytes. Qed.
Lemma fq_write_number x f : number (fq_write x (sw_u8_bitmask f)) = fqv x + 2 ^ 382 * tag f.
Proof.
  unfold fq_write. rewrite fq_write_flags by apply fqv_range. rewrite number_le_bytes. apply Z.mod_small.
  change (256 ^ Z.of_nat 48) with (2 ^ 384). apply small_tag, fqv_range.
Qed.
Lemma fq2_write_is_bytes x f : is_bytes (fq2_write x (sw_u8_bitmask f)) = true.
Proof. unfold fq2_write. rewrite is_bytes_app. change 0 with (sw_u8_bitmask NegY) at 1. rewrite !fq_write_is_bytes. reflexivity. Qed.
Lemma fq2_write_number x f : number (fq2_write x (sw_u8_bitmask f)) = fqv (fst x) + 2 ^ 384 * fqv (snd x) + 2 ^ 766 * tag f.
Proof.
  unfold fq2_write. rewrite number_app, fq_write_length. change 0 with (sw_u8_bitmask NegY) at 1. rewrite !fq_write_number.
  change (256 ^ Z.of_nat 48) with (2 ^ 384). change (2 ^ 766) with (2 ^ 384 * 2 ^ 382). cbn [tag]. lia.
Qed.

(** ** points *)
Section Affine.
  Context (K : Type) (k0 k1 : K) (kadd kmul ksub : K -> K -> K) (kopp : K -> K) (kdiv : K -> K -> K) (kinv : K -> K).
  Context (keqb kltb : K -> K -> bool) (b : K) (sqrt : K -> option K).
  Hypothesis Kfield : field_theory k0 k1 kadd kmul ksub kopp kdiv kinv (@eq K).
  Hypothesis keqb_spec : forall x y, keqb x y = true <-> x = y.
  Hypothesis ltb_asym : forall x y, kltb x y = true -> kltb y x = false.
  Hypothesis ltb_total : forall x y, kltb x y = false -> kltb y x = false -> x = y.
  Hypothesis sqrt_ok : sqrt_spec kmul sqrt.
  Context (n : nat) (write : K -> byte -> bytes) (read : bytes -> option (K * bytes))
          (read_flags : bytes -> option (K * sw_flags * bytes)) (num : K -> sw_flags -> Z).
  Hypothesis rw_flags : forall x f rest, read_flags (write x (sw_u8_bitmask f) ++ rest) = Some (x, f, rest).
  Hypothesis canon_flags : forall l x f rest, is_bytes l = true -> read_flags l = Some (x, f, rest) -> l = write x (sw_u8_bitmask f) ++ rest.
  Hypothesis rw : forall x rest, read (write x 0 ++ rest) = Some (x, rest).
  Hypothesis write_len : forall x m, length (write x m) = n.
  Hypothesis write_bytes : forall x f, is_bytes (write x (sw_u8_bitmask f)) = true.
  Hypothesis write_num : forall x f, number (write x (sw_u8_bitmask f)) = num x f.
  Context (in_subgroup : K * K -> bool).

  Notation ser := (affine_serialize kopp k0 kltb write).
  Notation deser := (affine_deserialize kadd kmul kopp kltb b sqrt read_flags in_subgroup).
  Notation get_iff := (get_point_iff K k0 k1 kadd kmul ksub kopp kdiv kinv keqb kltb b sqrt Kfield keqb_spec ltb_asym ltb_total sqrt_ok).

  Lemma firstn_write x m rest : firstn n (write x m ++ rest) = write x m.
  Proof. rewrite firstn_app, write_len, Nat.sub_diag, firstn_O, app_nil_r. apply firstn_all2. rewrite write_len. lia. Qed.
  Lemma read_flags_iff l x f : is_bytes l = true ->
    (exists rest, read_flags l = Some (x, f, rest)) <-> (n <= length l)%nat /\ number (firstn n l) = num x f.
  Proof.
    intros Hb. split.
    - intros (rest & H). apply canon_flags in H; [|exact Hb]. subst l. rewrite app_length, write_len, firstn_write, write_num. split; [lia|reflexivity].
    - intros [Hl H]. exists (skipn n l). rewrite <- (firstn_skipn n l) at 1. replace (firstn n l) with (write x (sw_u8_bitmask f)); [apply rw_flags|].
      apply number_inj; [apply write_bytes|apply is_bytes_firstn, Hb|rewrite write_len, firstn_length; lia|rewrite H; apply write_num].
  Qed.
  Definition wire (v : Z) (P : apoint K) : Prop :=
    match P with
    | None => exists x, v = num x Infinity
    | Some (x, y) => kmul y y = kadd (kmul x (kmul x x)) b /\
        (v = num x NegY /\ kltb (kopp y) y = false \/ v = num x PosY /\ kltb y (kopp y) = false)
    end.
  Lemma deser_iff l P : is_bytes l = true -> deser l = Ok P <->
    (n <= length l)%nat /\ wire (number (firstn n l)) P /\ (forall Q, P = Some Q -> in_subgroup Q = true).
  Proof.
    intros Hb. split.
    - unfold affine_deserialize. destruct (read_flags l) as [[[x f] rest]|] eqn:R; [|discriminate].
      assert (R' : exists rest, read_flags l = Some (x, f, rest)) by eauto. apply (read_flags_iff l x f Hb) in R'. destruct R' as [Hl Hn].
      destruct f.
      + injection 1 as <-. split; [exact Hl|]. split; [exists x; exact Hn|discriminate].
      + destruct (get_point_from_x _ _ _ _ _ _ x true) as [[[x' y]|]|] eqn:G; try discriminate.
        destruct (in_subgroup (x', y)) eqn:I; [|discriminate]. injection 1 as <-. apply get_iff in G. destruct G as (y' & E & Hy & Hs).
        injection E as -> ->. split; [exact Hl|]. split; [split; [exact Hy|]|intros Q HQ; injection HQ as <-; exact I].
        right. split; [exact Hn|exact Hs].
      + destruct (get_point_from_x _ _ _ _ _ _ x false) as [[[x' y]|]|] eqn:G; try discriminate.
        destruct (in_subgroup (x', y)) eqn:I; [|discriminate]. injection 1 as <-. apply get_iff in G. destruct G as (y' & E & Hy & Hs).
        injection E as -> ->. split; [exact Hl|]. split; [split; [exact Hy|]|intros Q HQ; injection HQ as <-; exact I].
        left. split; [exact Hn|exact Hs].
    - intros (Hl & W & I). unfold affine_deserialize. destruct P as [[x y]|].
      + destruct W as [Hy [[Hn Hs]|[Hn Hs]]].
        * destruct (proj2 (read_flags_iff l x NegY Hb) (conj Hl Hn)) as [rest ->].
          rewrite (proj2 (get_iff x false (Some (x, y)))) by (exists y; auto). rewrite (I _ eq_refl). reflexivity.
        * destruct (proj2 (read_flags_iff l x PosY Hb) (conj Hl Hn)) as [rest ->].
          rewrite (proj2 (get_iff x true (Some (x, y)))) by (exists y; auto). rewrite (I _ eq_refl). reflexivity.
      + destruct W as [x Hn]. destruct (proj2 (read_flags_iff l x Infinity Hb) (conj Hl Hn)) as [rest ->]. reflexivity.
  Qed.
  Lemma ser_shape P : exists x f, ser P = write x (sw_u8_bitmask f).
  Proof. destruct P as [[x y]|]; eexists _, _; reflexivity. Qed.
  Lemma ser_length P : length (ser P) = n /\ is_bytes (ser P) = true.
  Proof. destruct (ser_shape P) as (x & f & ->). auto. Qed.
  Lemma ser_wire P : (forall x y, P = Some (x, y) -> kmul y y = kadd (kmul x (kmul x x)) b) -> wire (number (ser P)) P.
  Proof.
    intros C. destruct P as [[x y]|]; cbn [affine_serialize wire]; rewrite write_num; [|eauto].
    split; [apply C; reflexivity|]. destruct (kltb (kopp y) y) eqn:E; cbn [sw_from_y_sign]; [right|left; auto].
    split; [reflexivity|]. apply ltb_asym, E.
  Qed.
  Lemma roundtrip P rest : is_bytes rest = true -> (forall x y, P = Some (x, y) -> kmul y y = kadd (kmul x (kmul x x)) b) ->
    (forall Q, P = Some Q -> in_subgroup Q = true) -> deser (ser P ++ rest) = Ok P.
  Proof.
    intros Hr C I. destruct (ser_length P) as [L B]. apply deser_iff; [rewrite is_bytes_app, B; exact Hr|].
    destruct (ser_shape P) as (x & f & E). split; [rewrite app_length; lia|]. split; [|exact I].
    rewrite E, firstn_write, <- E. apply ser_wire, C.
  Qed.
  Lemma canonical l x y : is_bytes l = true -> deser l = Ok (Some (x, y)) -> y <> kopp y -> firstn n l = ser (Some (x, y)).
  Proof.
    intros Hb H Hy. apply deser_iff in H; [|exact Hb]. destruct H as (Hl & (_ & W) & _).
    destruct (ser_length (Some (x, y))) as [L B].
    apply number_inj; [apply is_bytes_firstn, Hb|exact B|rewrite L, firstn_length; lia|].
    cbn [affine_serialize]. rewrite write_num. destruct (kltb (kopp y) y) eqn:E; cbn [sw_from_y_sign].
    - destruct W as [[_ W]|[W _]]; [congruence|exact W].
    - destruct W as [[W _]|[_ W]]; [exact W|]. destruct (Hy (ltb_total _ _ W E)).
  Qed.
  Lemma canonical_infinity l : is_bytes l = true -> deser l = Ok None -> exists x, firstn n l = write x (sw_u8_bitmask Infinity).
  Proof.
    intros Hb H. apply deser_iff in H; [|exact Hb]. destruct H as (Hl & (x & W) & _). exists x.
    apply number_inj; [apply is_bytes_firstn, Hb|apply write_bytes|rewrite write_len, firstn_length; lia|]. rewrite write_num. exact W.
  Qed.
  Notation useru := (affine_serialize_uncompressed k0 k1 write).
  Notation udeser := (affine_deserialize_uncompressed read read_flags in_subgroup).
  Lemma uroundtrip P rest : (forall Q, P = Some Q -> in_subgroup Q = true) -> udeser (useru P ++ rest) = Ok P.
  Proof.
    intros I. unfold affine_deserialize_uncompressed, affine_serialize_uncompressed. destruct P as [[x y]|].
    - rewrite <- app_assoc, rw, rw_flags, (I _ eq_refl). reflexivity.
    - rewrite <- app_assoc, rw, rw_flags. reflexivity.
  Qed.
  Lemma udeser_subgroup l Q : udeser l = Ok (Some Q) -> in_subgroup Q = true.
  Proof.
    unfold affine_deserialize_uncompressed. destruct (read l) as [[x l1]|]; [|discriminate].
    destruct (read_flags l1) as [[[y f] rest]|]; [|discriminate].
    destruct f; try discriminate; destruct (in_subgroup (x, y)) eqn:E; try discriminate; injection 1 as <-; exact E.
  Qed.
  Lemma user_length P : length (useru P) = (n + n)%nat.
  Proof. destruct P as [[x y]|]; cbn [affine_serialize_uncompressed]; rewrite app_length, !write_len; reflexivity. Qed.
End Affine.

(** ** signatures *)
Definition g1num (x : fq) (f : sw_flags) : Z := fqv x + 2 ^ 382 * tag f.
Lemma wire_g1_iff v P : wire fq qadd qmul qopp q_ltb G1_B g1num v P <-> wire_g1 v P.
Proof.
  destruct P as [[X Y]|]; unfold wire, wire_g1, g1num, g1_equation; cbn [fst snd tag].
  - rewrite !le1_ltb. change (2 ^ 383) with (2 ^ 382 * 2). rewrite Z.mul_0_r, Z.add_0_r. reflexivity.
  - split.
    + intros [x ->]. exists (fqv x). pose proof (fqv_range x). lia.
    + intros (x & Hx & ->). exists (fq_of x). rewrite fqv_of_small by exact Hx. lia.
Qed.
Definition g2num (x : fq2) (f : sw_flags) : Z := fqv (fst x) + 2 ^ 384 * fqv (snd x) + 2 ^ 766 * tag f.
Lemma wire_g2_iff v P : wire fq2 q2add q2mul q2opp q2_ltb TWIST_B g2num v P <-> wire_g2 v P.
Proof.
  destruct P as [[X Y]|]; unfold wire, wire_g2, g2num, g2_equation; cbn [fst snd tag].
  - rewrite !le2_ltb. change (2 ^ 767) with (2 ^ 766 * 2). rewrite Z.mul_0_r, Z.add_0_r. reflexivity.
  - split.
    + intros [x ->]. exists (fqv (fst x)), (fqv (snd x)). pose proof (fqv_range (fst x)). pose proof (fqv_range (snd x)). lia.
    + intros (x0 & x1 & H0 & H1 & ->). exists (fq_of x0, fq_of x1). cbn [fst snd]. rewrite !fqv_of_small by assumption. lia.
Qed.

Section Sig.
  Context (sqrt : fq -> option fq) (Hs : sqrt_spec qmul sqrt) (in_subgroup : fq * fq -> bool).
  Lemma sig_deser_iff l P : is_bytes l = true ->
    signature_deserialize sqrt in_subgroup l = Ok P <->
    (48 <= length l)%nat /\ wire_g1 (number (firstn 48 l)) P /\ (forall Q, P = Some Q -> in_subgroup Q = true).
  Proof.
    intros Hb. unfold signature_deserialize.
    rewrite (deser_iff fq q0 q1 qadd qmul qsub qopp qdiv qinv qeqb q_ltb G1_B sqrt fq_field qeqb_spec q_ltb_asym q_ltb_total Hs
      48 fq_write fq_read_flags g1num fq_read_write_flags fq_read_flags_canonical fq_write_length fq_write_is_bytes fq_write_number in_subgroup l P Hb).
    rewrite wire_g1_iff. reflexivity.
  Qed.
  Lemma sig_roundtrip P rest : is_bytes rest = true -> (forall Q, P = Some Q -> g1_equation Q /\ in_subgroup Q = true) ->
    signature_deserialize sqrt in_subgroup (signature_serialize P ++ rest) = Ok P.
  Proof.
    intros Hr C. apply (roundtrip fq q0 q1 qadd qmul qsub qopp qdiv qinv qeqb q_ltb G1_B sqrt fq_field qeqb_spec q_ltb_asym q_ltb_total Hs
      48 fq_write fq_read_flags g1num fq_read_write_flags fq_read_flags_canonical fq_write_length fq_write_is_bytes fq_write_number in_subgroup); [exact Hr| |].
    - intros x y ->. apply (C (x, y) eq_refl).
    - intros Q ->. apply (C Q eq_refl).
  Qed.
  Lemma sig_canonical l Q : is_bytes l = true -> signature_deserialize sqrt in_subgroup l = Ok (Some Q) -> snd Q <> qopp (snd Q) ->
    firstn 48 l = signature_serialize (Some Q).
  Proof.
    destruct Q as [x y]. exact (canonical fq q0 q1 qadd qmul qsub qopp qdiv qinv qeqb q_ltb G1_B sqrt fq_field qeqb_spec q_ltb_asym q_ltb_total Hs
      48 fq_write fq_read_flags g1num fq_read_write_flags fq_read_flags_canonical fq_write_length fq_write_is_bytes fq_write_number in_subgroup l x y).
  Qed.
  Lemma sig_uroundtrip P rest : (forall Q, P = Some Q -> in_subgroup Q = true) ->
    signature_deserialize_uncompressed in_subgroup (signature_serialize_uncompressed P ++ rest) = Ok P.
  Proof. exact (uroundtrip fq q0 q1 fq_write fq_read fq_read_flags fq_read_write_flags fq_read_write in_subgroup P rest). Qed.
End Sig.
Section Pk.
  Context (sqrt : fq2 -> option fq2) (Hs : sqrt_spec q2mul sqrt) (in_subgroup : fq2 * fq2 -> bool).
  Lemma pk_deser_iff l P : is_bytes l = true ->
    public_key_deserialize sqrt in_subgroup l = Ok P <->
    (96 <= length l)%nat /\ wire_g2 (number (firstn 96 l)) P /\ (forall Q, P = Some Q -> in_subgroup Q = true).
  Proof.
    intros Hb. unfold public_key_deserialize.
    rewrite (deser_iff fq2 q2_0 q2_1 q2add q2mul q2sub q2opp q2div q2inv q2eqb q2_ltb TWIST_B sqrt fq2_field q2eqb_spec q2_ltb_asym q2_ltb_total Hs
      96 fq2_write fq2_read_flags g2num fq2_read_write_flags fq2_read_flags_canonical fq2_write_length fq2_write_is_bytes fq2_write_number in_subgroup l P Hb).
    rewrite wire_g2_iff. reflexivity.
  Qed.
  Lemma pk_roundtrip P rest : is_bytes rest = true -> (forall Q, P = Some Q -> g2_equation Q /\ in_subgroup Q = true) ->
    public_key_deserialize sqrt in_subgroup (public_key_serialize P ++ rest) = Ok P.
  Proof.
    intros Hr C. apply (roundtrip fq2 q2_0 q2_1 q2add q2mul q2sub q2opp q2div q2inv q2eqb q2_ltb TWIST_B sqrt fq2_field q2eqb_spec q2_ltb_asym q2_ltb_total Hs
      96 fq2_write fq2_read_flags g2num fq2_read_write_flags fq2_read_flags_canonical fq2_write_length fq2_write_is_bytes fq2_write_number in_subgroup); [exact Hr| |].
    - intros x y ->. apply (C (x, y) eq_refl).
    - intros Q ->. apply (C Q eq_refl).
  Qed.
  Lemma pk_canonical l Q : is_bytes l = true -> public_key_deserialize sqrt in_subgroup l = Ok (Some Q) -> snd Q <> q2opp (snd Q) ->
    firstn 96 l = public_key_serialize (Some Q).
  Proof.
    destruct Q as [x y]. exact (canonical fq2 q2_0 q2_1 q2add q2mul q2sub q2opp q2div q2inv q2eqb q2_ltb TWIST_B sqrt fq2_field q2eqb_spec q2_ltb_asym q2_ltb_total Hs
      96 fq2_write fq2_read_flags g2num fq2_read_write_flags fq2_read_flags_canonical fq2_write_length fq2_write_is_bytes fq2_write_number in_subgroup l x y).
  Qed.
  Lemma pk_uroundtrip P rest : (forall Q, P = Some Q -> in_subgroup Q = true) ->
    public_key_deserialize_uncompressed in_subgroup (public_key_serialize_uncompressed P ++ rest) = Ok P.
  Proof. exact (uroundtrip fq2 q2_0 q2_1 fq2_write fq2_read fq2_read_flags fq2_read_write_flags fq2_read_write in_subgroup P rest). Qed.
End Pk.

(** serialisation is injective on curve points *)
Lemma sig_ser_inj P P' : (forall Q, P = Some Q -> g1_equation Q) -> (forall Q, P' = Some Q -> g1_equation Q) ->
  signature_serialize P = signature_serialize P' -> P = P'.
Proof.
  intros C C' E.
  pose proof (sig_roundtrip fq_sqrt fq_sqrt_ok (fun _ => true) P [] eq_refl (fun Q H => conj (C Q H) eq_refl)) as R.
  pose proof (sig_roundtrip fq_sqrt fq_sqrt_ok (fun _ => true) P' [] eq_refl (fun Q H => conj (C' Q H) eq_refl)) as R'.
  rewrite E in R. congruence.
Qed.
Lemma pk_ser_inj P P' : (forall Q, P = Some Q -> g2_equation Q) -> (forall Q, P' = Some Q -> g2_equation Q) ->
  public_key_serialize P = public_key_serialize P' -> P = P'.
Proof.
  intros C C' E.
  pose proof (pk_roundtrip fq2_sqrt fq2_sqrt_ok (fun _ => true) P [] eq_refl (fun Q H => conj (C Q H) eq_refl)) as R.
  pose proof (pk_roundtrip fq2_sqrt fq2_sqrt_ok (fun _ => true) P' [] eq_refl (fun Q H => conj (C' Q H) eq_refl)) as R'.
  rewrite E in R. congruence.
Qed.
Lemma sizes : (forall sk, length (private_key_serialize sk) = 32%nat) /\
  (forall P, length (signature_serialize P) = 48%nat /\ length (signature_serialize_uncompressed P) = 96%nat) /\
  (forall P, length (public_key_serialize P) = 96%nat /\ length (public_key_serialize_uncompressed P) = 192%nat).
Proof.
  split; [|split; split].
  - intros sk. unfold private_key_serialize, fp_write. rewrite (le_bytes_snoc 31), or_last_snoc, app_length, le_bytes_length. reflexivity.
  - destruct P as [[x y]|]; apply fq_write_length.
  - exact (user_length fq q0 q1 48 fq_write fq_write_length P).
  - destruct P as [[x y]|]; apply fq2_write_length.
  - exact (user_length fq2 q2_0 q2_1 96 fq2_write fq2_write_length P).
Qed.
Lemma or_last_0 l : or_last l 0 = l.
Proof.
  unfold or_last. rewrite (map_ext _ (fun b => b)), map_id by (intros; apply Z.lor_0_r). apply firstn_skipn.
Qed.
Lemma private_iff l sk : is_bytes l = true -> private_key_deserialize l = Ok sk <->
  0 <= sk < r /\ exists rest, l = private_key_serialize sk ++ rest.
Proof.
  intros Hb. unfold private_key_deserialize, private_key_serialize, fp_write. rewrite or_last_0. split.
  - destruct (fp_read r 32 l) as [[v rest]|] eqn:E; [|discriminate]. injection 1 as <-.
    apply fp_read_canonical in E; [|exact Hb]. destruct E. eauto.
  - intros (H & rest & ->). rewrite fp_read_write; [reflexivity|lia|exact H|vm_compute; congruence].
Qed.
Lemma private_number l sk : is_bytes l = true -> private_key_deserialize l = Ok sk <->
  (32 <= length l)%nat /\ sk = number (firstn 32 l) /\ sk < r.
Proof.
  intros Hb. unfold private_key_deserialize, fp_read. rewrite <- number_le_val.
  destruct (Nat.ltb_spec (length l) 32); [split; [discriminate|lia]|].
  destruct (Z.ltb_spec (number (firstn 32 l)) r); split; try discriminate; try lia.
  - injection 1 as <-. auto.
  - intros (_ & -> & _). reflexivity.
Qed.
