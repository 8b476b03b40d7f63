(** C78: a signature that is accepted under one key speaks about one message, in one mode and for one purpose.

    Every exception is given as inputs of a hash that are computed from the two requests: [linked], [crh_collision] and
    [requests_clash] (BindingSpec.v).  That such inputs exist is clear (the hashes shorten); what an exception needs is to have them. *)
From Verif Require Import Base Constants Group Field Curve EncodingModel EncodingSpec HasherModel PointModel HashCurveModel HashCurveSpec CodecSpec
  CurveGroups RealSpec RealModel Edwards PedersenModel PedersenSpec BindingSpec BindingProofs.

(** Two messages with one composite digest: the relation between the bases is read off the two messages. *)
Theorem C78_digests : forall (Bs : list ed_grp) gens m m' out,
  Forall2 window_of Bs gens -> length Bs = 560%nat -> is_bytes m = true -> is_bytes m' = true ->
  m <> m' -> composite_crh gens m = Ok out -> composite_crh gens m' = Ok out -> linked Bs m m'.
Proof. exact collision_linked. Qed.
(** One signature, one key, the same flags: the same extra data and message (their concatenation, without CIP22). *)
Theorem C78_message : forall (GT : grp) (e : g1_point -> g2_point -> GT) (L : bilinear e) compat sqrt sqrt2,
  sqrt_spec qmul sqrt -> sqrt_spec q2mul sqrt2 ->
  forall (Bs : list ed_grp) gens, Forall2 window_of Bs gens -> length Bs = 560%nat ->
  forall pk sig m x m' x' c f, is_bytes pk = true -> is_bytes sig = true -> ~ wire_g2 (number (firstn 96 pk)) None ->
  is_bytes m = true -> is_bytes x = true -> is_bytes m' = true -> is_bytes x' = true ->
  c_verify GT e L compat (composite_crh gens) sqrt sqrt2 pk sig m x c f = Some true ->
  c_verify GT e L compat (composite_crh gens) sqrt sqrt2 pk sig m' x' c f = Some true ->
  same_content f m x m' x' \/
  (exists n n', 0 <= n < 255 /\ 0 <= n' < 255 /\ inner_collision Bs c f SIG_DOMAIN m x m' x' n n') \/
  requests_clash compat (composite_crh gens) c f SIG_DOMAIN m x c f SIG_DOMAIN m' x'.
Proof. exact one_message. Qed.
(** This is as much as it speaks about: the answers agree whenever these do, for every key and signature. *)
Theorem C78_content : forall (GT : grp) (e : g1_point -> g2_point -> GT) (L : bilinear e) compat sqrt sqrt2 ped pk sig m x m' x' c f,
  same_content f m x m' x' ->
  c_verify GT e L compat ped sqrt sqrt2 pk sig m x c f = c_verify GT e L compat ped sqrt sqrt2 pk sig m' x' c f.
Proof. exact same_content_same_answer. Qed.
(** Proofs of possession likewise. *)
Theorem C78_possession : forall (GT : grp) (e : g1_point -> g2_point -> GT) (L : bilinear e) compat sqrt sqrt2,
  sqrt_spec qmul sqrt -> sqrt_spec q2mul sqrt2 ->
  forall (Bs : list ed_grp) gens, Forall2 window_of Bs gens -> length Bs = 560%nat ->
  forall pk sig m m', is_bytes pk = true -> is_bytes sig = true -> ~ wire_g2 (number (firstn 96 pk)) None ->
  is_bytes m = true -> is_bytes m' = true ->
  c_verify_pop GT e L compat sqrt sqrt2 pk sig m = Some true -> c_verify_pop GT e L compat sqrt sqrt2 pk sig m' = Some true ->
  m = m' \/ (exists n n', 0 <= n < 255 /\ 0 <= n' < 255 /\ crh_collision POP_DOMAIN (n :: m) (n' :: m')) \/
  requests_clash compat (composite_crh gens) false false POP_DOMAIN m [] false false POP_DOMAIN m' [].
Proof. exact one_possession. Qed.
(** Under different flags there is no innocent case at all, whatever the messages; *)
Theorem C78_flags : forall (GT : grp) (e : g1_point -> g2_point -> GT) (L : bilinear e) compat sqrt sqrt2,
  sqrt_spec qmul sqrt -> sqrt_spec q2mul sqrt2 ->
  forall gens pk sig m x m' x' c f c' f', is_bytes pk = true -> is_bytes sig = true -> ~ wire_g2 (number (firstn 96 pk)) None -> (c, f) <> (c', f') ->
  c_verify GT e L compat (composite_crh gens) sqrt sqrt2 pk sig m x c f = Some true ->
  c_verify GT e L compat (composite_crh gens) sqrt sqrt2 pk sig m' x' c' f' = Some true ->
  requests_clash compat (composite_crh gens) c f SIG_DOMAIN m x c' f' SIG_DOMAIN m' x'.
Proof. exact one_mode. Qed.
(** nor between a signature and a proof of possession. *)
Theorem C78_purpose : forall (GT : grp) (e : g1_point -> g2_point -> GT) (L : bilinear e) compat sqrt sqrt2,
  sqrt_spec qmul sqrt -> sqrt_spec q2mul sqrt2 ->
  forall gens pk sig m x c f m', is_bytes pk = true -> is_bytes sig = true -> ~ wire_g2 (number (firstn 96 pk)) None ->
  c_verify GT e L compat (composite_crh gens) sqrt sqrt2 pk sig m x c f = Some true ->
  c_verify_pop GT e L compat sqrt sqrt2 pk sig m' = Some true ->
  requests_clash compat (composite_crh gens) c f SIG_DOMAIN m x false false POP_DOMAIN m' [].
Proof. exact one_purpose. Qed.
(** Epoch blocks: one signature, one (aggregate) key, one block, in the encoding that is signed since CIP22 *)
Theorem C78_epoch_block : forall (GT : grp) (e : g1_point -> g2_point -> GT) (L : bilinear e) compat sqrt sqrt2,
  sqrt_spec qmul sqrt -> sqrt_spec q2mul sqrt2 ->
  forall (Bs : list ed_grp) gens, Forall2 window_of Bs gens -> length Bs = 560%nat ->
  forall pk sig b m x b' m' x', is_bytes pk = true -> is_bytes sig = true -> ~ wire_g2 (number (firstn 96 pk)) None ->
  wf_block b -> wf_block b' -> enc_signed b = Ok (m, x) -> enc_signed b' = Ok (m', x') ->
  c_verify GT e L compat (composite_crh gens) sqrt sqrt2 pk sig m x true true = Some true ->
  c_verify GT e L compat (composite_crh gens) sqrt sqrt2 pk sig m' x' true true = Some true ->
  (eb_index b = eb_index b' /\ eb_round b = eb_round b' /\ eb_max_non_signers b = eb_max_non_signers b' /\
   entropy_value (eb_epoch_entropy b) = entropy_value (eb_epoch_entropy b') /\
   entropy_value (eb_parent_entropy b) = entropy_value (eb_parent_entropy b') /\ padded_keys b = padded_keys b') \/
  linked Bs m m' \/ requests_clash compat (composite_crh gens) true true SIG_DOMAIN m x true true SIG_DOMAIN m' x'.
Proof. exact one_block. Qed.
(** and in the earlier one. *)
Theorem C78_epoch_block_plain : forall (GT : grp) (e : g1_point -> g2_point -> GT) (L : bilinear e) compat sqrt sqrt2,
  sqrt_spec qmul sqrt -> sqrt_spec q2mul sqrt2 ->
  forall (Bs : list ed_grp) gens, Forall2 window_of Bs gens -> length Bs = 560%nat ->
  forall pk sig b o b' o', is_bytes pk = true -> is_bytes sig = true -> ~ wire_g2 (number (firstn 96 pk)) None ->
  wf_block b -> wf_block b' -> enc_plain b = Ok o -> enc_plain b' = Ok o' ->
  c_verify GT e L compat (composite_crh gens) sqrt sqrt2 pk sig o [] true false = Some true ->
  c_verify GT e L compat (composite_crh gens) sqrt sqrt2 pk sig o' [] true false = Some true ->
  (eb_index b = eb_index b' /\ eb_max_non_signers b = eb_max_non_signers b' /\ eb_keys b = eb_keys b') \/
  (exists n n', 0 <= n < 255 /\ 0 <= n' < 255 /\ linked Bs (n :: o) (n' :: o')) \/
  requests_clash compat (composite_crh gens) true false SIG_DOMAIN o [] true false SIG_DOMAIN o' [].
Proof. exact one_block_plain. Qed.

Print Assumptions C78_digests.
Print Assumptions C78_message.
Print Assumptions C78_content.
Print Assumptions C78_possession.
Print Assumptions C78_flags.
Print Assumptions C78_purpose.
Print Assumptions C78_epoch_block.
Print Assumptions C78_epoch_block_plain.
