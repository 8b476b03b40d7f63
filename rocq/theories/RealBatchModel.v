(** Batch verification through the C interface, from bytes to answers, on the groups of BLS12-377. *)
From Verif Require Import Base Constants Group Field Curve BlsModel PointModel EncodingModel HasherModel HashCurveModel CodecModel FfiModel CurveGroups OrderSpec TwistSpec RealSpec RealModel.

(** A key, a signature, a message and its extra data, as bytes. *)
Record item := Item { i_key : bytes; i_sig : bytes; i_msg : bytes; i_extra : bytes }.
(** A message with the keys and signatures of one batch. *)
Record lot := Lot { l_msg : bytes; l_extra : bytes; l_keys : list bytes; l_sigs : list bytes }.
Section RealBatch.
  Context (GT : grp) (e : g1_point -> g2_point -> GT) (L : bilinear e).
  Context (compat : bool) (ped : bytes -> result bytes) (sqrt : fq -> option fq) (sqrt2 : fq2 -> option fq2).
  Notation pr := (real_pairing GT e L).
  Notation direct := (direct_g1 GT e L compat sqrt).
  Notation composite := (composite_g1 GT e L compat ped sqrt).
  Notation cip22 := (cip22_g1 GT e L compat ped sqrt).
  (** deserialize_public_key and deserialize_signature of each, batch_verify_signature (signatures.rs lines 290-333) *)
  Definition read_items (l : list item) : option (list (message pr)) :=
    match read_all (read_key sqrt2) (map i_key l), read_all (read_signature sqrt) (map i_sig l) with
    | Some Ps, Some Ss => Some (map (fun '(i, (P, T)) => Msg (pr := pr) (i_msg i) (i_extra i) (of2 P) (of1 T)) (combine l (combine Ps Ss)))
    | _, _ => None
    end.
  Definition c_batch_verify (l : list item) (use_composite use_cip22 : bool) : option bool :=
    match read_items l with
    | Some ms => then_call (ffi_batch_verify_signature direct composite cip22 ms use_composite use_cip22) (fun v => Some v)
    | None => None
    end.
  (** deserialize_public_key and deserialize_signature of each, batch_verify_strict (signatures.rs lines 343-404); with each
      batch the random bytes drawn for it.  The result and the array written. *)
  Definition read_lot (q : lot) : option (batch_message pr) :=
    match read_all (read_key sqrt2) (l_keys q), read_all (read_signature sqrt) (l_sigs q) with
    | Some Ps, Some Ss => Some (BMsg (pr := pr) (l_msg q) (l_extra q) (map of2 Ps) (map of1 Ss))
    | _, _ => None
    end.
  Fixpoint read_lots (l : list (lot * list bytes)) : option (list (batch_message pr * list bytes)) :=
    match l with
    | [] => Some []
    | (q, rnd) :: l' => match read_lot q, read_lots l' with Some b, Some bs => Some ((b, rnd) :: bs) | _, _ => None end
    end.
  Definition c_batch_strict (l : list (lot * list bytes)) (use_composite use_cip22 : bool) : option (bool * list bool) :=
    match read_lots l with
    | Some bs => match ffi_batch_verify_strict direct composite cip22 bs use_composite use_cip22 with Returns b (Some slots) => Some (b, slots) | _ => None end
    | None => None
    end.
End RealBatch.
