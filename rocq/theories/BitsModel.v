(** Model of crates/bls-gadgets/src/utils.rs and of [pack] in crates/epoch-snark/src/gadgets/mod.rs.
    Bits are [bool]s, bytes are integers below 256, u8 additions that overflow are panics. *)
From Verif Require Import Base.

(** [slice::chunks(n)]; the fuel is the length of the list and is never exhausted for n > 0. *)
Fixpoint chunks_fuel {A} (fuel n : nat) (l : list A) : list (list A) :=
  match fuel with
  | O => []
  | S f => match l with [] => [] | _ => firstn n l :: chunks_fuel f n (skipn n l) end
  end.
Definition chunks {A} (n : nat) (l : list A) : list (list A) := chunks_fuel (length l) n l.

(** utils.rs lines 11-17: the inner loop, [byte : u8] with checked addition, [twoi : u64]. *)
Fixpoint chunk_loop (chunk : list bool) (byte twoi : Z) : result Z :=
  match chunk with
  | [] => Ok byte
  | c :: rest =>
    let t := (twoi * (if c then 1 else 0)) mod 256 in
    if byte + t <? 256 then chunk_loop rest (byte + t) (twoi * 2) else Panic
  end.

(** lines 2-21 *)
Definition bits_be_to_bytes_le (bits : list bool) : result bytes :=
  mapM (fun c => chunk_loop c 0 1) (chunks 8 (rev bits)).
(** lines 24-26 *)
Definition bits_le_to_bytes_le (bits : list bool) : result bytes := bits_be_to_bytes_le (rev bits).

(** lines 33-37: eight times [byte & 1], [byte >>= 1]. *)
Fixpoint byte_bits (n : nat) (b : Z) : list bool :=
  match n with O => [] | S n' => Z.odd b :: byte_bits n' (Z.shiftr b 1) end.
(** lines 30-46 *)
Definition bytes_le_to_bits_be (l : bytes) (bits_to_take : nat) : list bool :=
  rev (firstn bits_to_take (flat_map (byte_bits 8) l)).
(** lines 49-54 *)
Definition bytes_le_to_bits_le (l : bytes) (bits_to_take : nat) : list bool :=
  rev (bytes_le_to_bits_be l bits_to_take).

(** [BigInteger::from_bits_be]: the bits are reversed and accumulated with increasing powers of two. *)
Fixpoint bits_le_val (bits : list bool) : Z :=
  match bits with [] => 0 | b :: rest => (if b then 1 else 0) + 2 * bits_le_val rest end.
Definition from_bits_be (bits : list bool) : Z := bits_le_val (rev bits).

(** gadgets/mod.rs lines 75-83 for a prime field of modulus [q] and capacity [cap]; [F::from_repr] is
    [None] for values not below the modulus and [.get()] turns that into an error. *)
Definition from_repr (q v : Z) : option Z := if v <? q then Some v else None.
Fixpoint all_some {A} (l : list (option A)) : option (list A) :=
  match l with
  | [] => Some []
  | Some x :: l' => option_map (cons x) (all_some l')
  | None :: _ => None
  end.
Definition pack (q : Z) (cap : nat) (values : list bool) : option (list Z) :=
  all_some (map (fun c => from_repr q (from_bits_be c)) (chunks cap values)).
