(** Concrete instances of the hypotheses of PropEncoding.v. *)
From Verif Require Import Base Constants Field Curve BitsModel BitsProofs EncodingModel EncodingSpec EncodingProofs PropEncoding.

Example ex_C17 : is_bytes [1; 130; 7] = true /\ bits_le_to_bytes_le (bytes_le_to_bits_le [1; 130; 7] 24) = Ok [1; 130; 7] /\
  bits_le_to_bytes_le [true; false; true; true; false; false; false; false; true] = Ok [13; 1].
Proof. repeat split; reflexivity. Qed.

(** The generator and its negation: two points with the same x. *)
Example ex_C18 : on_twist g2_generator = true /\ on_twist (g2_neg g2_generator) = true /\ g2_generator <> g2_neg g2_generator.
Proof.
  split; [exact generator_on|]. split; [vm_compute; reflexivity|].
  intros H. apply (f_equal (fun P => match P with Some (_, y) => fqv (fst y) | None => 0 end)) in H. vm_compute in H. discriminate.
Qed.

Definition ex_block (i : Z) (keys : list g2_point) : epoch_block g2_point :=
  mk_block i 3 (Some (repeat 7 16)) None 1 2 keys.
Example ex_C19 : wf_block (ex_block 5 [g2_generator]) /\ wf_block (ex_block 6 [g2_neg g2_generator]) /\
  padded_keys (ex_block 5 [g2_generator]) = [g2_generator; g2_generator].
Proof.
  split; [|split; [|reflexivity]]; (split; [repeat split; cbn; lia|]); (split; [split; [reflexivity|cbn; lia]|]); (split; [exact I|]);
    cbn [ex_block eb_keys forallb]; rewrite andb_true_r; [apply generator_on|apply ex_C18].
Qed.

(** The layouts of one block: the first bits of the index 5 and of the round 3, and the seven bytes they are written as. *)
Example ex_C19_layout : firstn 20 (extra_layout (ex_block 5 [])) =
    [true; false; true; false; false; false; false; false; false; false; false; false; false; false; false; false; true; true; false; false] /\
  written (extra_layout (ex_block 5 [])) [0; 0; 0; 128; 192; 0; 160] /\
  (exists m, enc_signed (ex_block 5 []) = Ok (m, [0; 0; 0; 128; 192; 0; 160])) /\
  firstn 8 (signed_layout (ex_block 5 [])) = [true; true; true; false; false; false; false; false].
Proof.
  assert (W : written (extra_layout (ex_block 5 [])) [0; 0; 0; 128; 192; 0; 160]) by (repeat split; vm_compute; reflexivity).
  split; [reflexivity|]. split; [exact W|]. split; [|reflexivity].
  destruct (C19_layouts (ex_block 5 [])) as (_ & _ & _ & m & x & E & _ & X).
  - split; [repeat split; cbn; lia|]. split; [split; [reflexivity|cbn; lia]|]. split; [exact I|reflexivity].
  - exists m. rewrite E, (C19_layout_determines_bytes _ _ _ X W). reflexivity.
Qed.

(** The padding changes the aggregate: -G alone, against -G + G = infinity. *)
Example ex_C20_last : wf_block (ex_block 6 [g2_neg g2_generator]) /\
  enc_last (set_keys (ex_block 6 [g2_neg g2_generator]) (padded_keys (ex_block 6 [g2_neg g2_generator])))
    <> enc_last (ex_block 6 [g2_neg g2_generator]).
Proof.
  split; [apply ex_C19|]. rewrite padding_last by apply ex_C19. intros H.
  apply (f_equal (fun P : g2_point => match P with Some _ => true | None => false end)) in H. vm_compute in H. discriminate.
Qed.
(** Two different pairs of short entropies with one encoding. *)
Example ex_C20_short : forall keys, let b := ex_block 5 keys in
  set_entropies b (Some [1; 2]) (Some [3]) <> set_entropies b (Some [1]) (Some [2; 3]) /\
  enc_signed (set_entropies b (Some [1; 2]) (Some [3])) = enc_signed (set_entropies b (Some [1]) (Some [2; 3])).
Proof. intros keys b. split; [discriminate|]. apply (C20_short_entropies_collide b [1] [2] [3]); cbn; lia. Qed.

(** A hash with 32-byte outputs and two different digests. *)
Definition toy_blake2 (x : bytes) : bytes := repeat (match x with b :: _ => b mod 256 | [] => 0 end) 32.
Example ex_C21 : (forall x, length (toy_blake2 x) = 32%nat /\ is_bytes (toy_blake2 x) = true) /\
  exists d1 d2, digests_of toy_blake2 (ex_block 5 []) (ex_block 6 []) = Some (d1, d2).
Proof.
  split.
  - intros x. unfold toy_blake2. split; [apply repeat_length|]. unfold is_bytes. apply forallb_forall. intros y Hy.
    apply repeat_spec in Hy. subst. unfold is_byte. destruct x as [|b x]; [reflexivity|].
    pose proof (Z.mod_pos_bound b 256 ltac:(lia)). apply andb_true_iff. rewrite Z.leb_le, Z.ltb_lt. lia.
  - destruct (public_inputs_eq toy_blake2 (ex_block 5 []) (ex_block 6 [])) as (d1 & d2 & H & _).
    { intros x. apply repeat_length. } exists d1, d2. exact H.
Qed.
