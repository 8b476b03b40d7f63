(** Model of crates/bls-gadgets/src: y_to_bit.rs, bitmap.rs and bls.rs, over the field F_p of
    BLS12-377 ([Fr] of BW6-761). *)
From Verif Require Import Base Constants Group Field Curve EncodingModel Circuit.
Local Open Scope circ_scope.

Definition halfq : fq := fq_of half.

(** ** y_to_bit.rs *)
(** lines 91-127 *)
Definition is_eq_zero (el : fpvar) : circ bool :=
  match el with
  | Constant v => Ret (qeqb v q0)
  | Var v =>
    bit <- new_bool (Val (qeqb v q0)) ;;
    inv <- witness (Val (if qeqb v q0 then q0 else qinv v)) ;;
    enforce (qeqb (qmul v inv) (qsub q1 (bfq bit))) ;;;
    enforce (qeqb (qmul v (bfq bit)) q0) ;;;
    Ret bit
  end.
(** lines 130-162; field elements are compared as integers *)
Definition normalize (el : fpvar) : circ bool :=
  match el with
  | Constant v => Ret (half <? fqv v)
  | Var v =>
    bit <- new_bool (Val (half <? fqv v)) ;;
    adjusted <- witness (Val (if half <? fqv v then qsub v halfq else v)) ;;
    enforce (qeqb (qmul q1 (qadd v (qmul (bfq bit) (qopp halfq)))) adjusted) ;;;
    enforce_le_half adjusted ;;;
    Ret bit
  end.
(** lines 35-42 *)
Definition g1_y_to_bit (y : fq) : circ bool := normalize (Var y).
(** lines 45-86 *)
Definition g2_y_to_bit (y : fq2) : circ bool :=
  let '(c0, c1) := y in
  y_bit <- new_bool (Val ((half <? fqv c1) || (qeqb c1 q0 && (half <? fqv c0)))) ;;
  y_c0_bit <- normalize (Var c0) ;;
  y_c1_bit <- normalize (Var c1) ;;
  y_eq_bit <- is_eq_zero (Var c1) ;;
  let bc := y_eq_bit && y_c0_bit in
  enforce (qeqb (qmul (qsub q1 (bfq y_c1_bit)) (bfq bc)) (qsub (bfq y_bit) (bfq y_c1_bit))) ;;;
  Ret y_bit.

(** ** bitmap.rs *)
(** lines 34-51: the linear combination *)
Definition occurrences_lc (bits : list bool) (v : bool) : fq :=
  fold_left (fun lc bit => let lc := if v then lc else qadd lc q1 in
                           qadd lc (qmul (bfq bit) (if v then q1 else qopp q1))) bits q0.
(** lines 48-50: the prover's counter is a u8; overflow panics with debug assertions and wraps without *)
Definition occurrences (debug : bool) (bits : list bool) (v : bool) : synth Z :=
  fold_left (fun acc bit => match acc with
    | Val n => let n' := n + (if Bool.eqb bit v then 1 else 0) in
               if n' <? 256 then Val n' else if debug then Panics else Val (n' mod 256)
    | stop => stop end) bits (Val 0).
(** lines 20-74; [self.cs()] of an empty slice is no constraint system, so the allocation fails *)
Definition enforce_maximum_occurrences_in_bitmap (debug : bool) (bits : list bool) (maximum : fq) (v : bool) : circ unit :=
  match bits with
  | [] => fails MissingCS
  | _ =>
    occ <- witness (smap fq_of (occurrences debug bits v)) ;;
    enforce_cmp_le occ maximum ;;;
    enforce (qeqb (qmul (occurrences_lc bits v) q1) occ)
  end.

(** ** bls.rs.  [E1], [E2]: the groups of the two curves (the variables are allocated without
    prime-order check, so these are the whole curves), [e]: the pairing. *)
Section Bls.
  Context {E1 E2 GT : grp} (e : E1 -> E2 -> GT) (gen2 : E2) (debug : bool).

  (** lines 137-155; [conditional_enforce_not_equal] is "not (equal and bit)" *)
  Fixpoint aggregate_loop (keys_bits : list (E2 * bool)) (padding : E2) (acc : E2) : circ E2 :=
    match keys_bits with
    | [] => Ret acc
    | (pk, bit) :: rest =>
      enforce (negb (geqb pk padding && bit)) ;;;
      let adder := if bit then pk else gz in
      aggregate_loop rest padding (ga acc adder)
    end.
  Definition enforce_aggregated_pubkeys (pub_keys : list E2) (bitmap : list bool) (padding : E2) : circ E2 :=
    if (length bitmap =? length pub_keys)%nat then aggregate_loop (combine pub_keys bitmap) padding gz else panics.
  (** lines 160-171 *)
  Definition enforce_aggregated_all_pubkeys (pub_keys : list E2) : circ E2 := Ret (fold_left ga pub_keys gz).
  (** lines 179-192 *)
  Definition enforce_bitmap (pub_keys : list E2) (bitmap : list bool) (message_hash : E1) (maximum_non_signers : fq)
      (padding : E2) : circ (E1 * E2) :=
    enforce_maximum_occurrences_in_bitmap debug bitmap maximum_non_signers false ;;;
    apk <- enforce_aggregated_pubkeys pub_keys bitmap padding ;;
    Ret (message_hash, apk).
  (** ark-r1cs-std [prepare_g2]: rejects the point at infinity; [prepare_g1] does not *)
  Definition prepare_g1 (P : E1) : circ E1 := Ret P.
  Definition prepare_g2 (Q : E2) : circ E2 := enforce (negb (geqb Q gz)) ;;; Ret Q.
  (** lines 197-214 *)
  Definition prepare_signature_neg_generator (signature : E1) : circ (E1 * E2) :=
    s <- prepare_g1 signature ;; g <- prepare_g2 (gn gen2) ;; Ret (s, g).
  (** lines 222-231; the Miller loop runs over the zip of the two lists *)
  Definition enforce_bls_equation (g1s : list E1) (g2s : list E2) : circ unit :=
    enforce (geqb (gsum (map (fun '(P, Q) => e P Q) (combine g1s g2s))) gz).
  (** lines 109-129 *)
  Definition batch_verify_prepared (keys : list E2) (hashes : list E1) (signature : E1) : circ unit :=
    '(s, g) <- prepare_signature_neg_generator signature ;;
    enforce_bls_equation (s :: hashes) (g :: keys).
  (** lines 85-105 *)
  Definition batch_verify (keys : list E2) (hashes : list E1) (signature : E1) : circ unit :=
    hs <- cmap prepare_g1 hashes ;;
    ks <- cmap prepare_g2 keys ;;
    batch_verify_prepared ks hs signature.
  (** lines 42-77 *)
  Definition verify (pub_keys : list E2) (bitmap : list bool) (message_hash signature : E1) (maximum_non_signers : fq)
      (padding : E2) : circ unit :=
    '(h, apk) <- enforce_bitmap pub_keys bitmap message_hash maximum_non_signers padding ;;
    k <- prepare_g2 apk ;;
    h <- prepare_g1 h ;;
    '(s, g) <- prepare_signature_neg_generator signature ;;
    enforce_bls_equation [s; h] [g; k].
End Bls.
