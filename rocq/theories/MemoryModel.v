(** The memory the C entry points hand out and take back: crates/bls-snark-sys/src/serialization.rs
    lines 218-266 and the [Box::into_raw] / [shrink_to_fit] / [mem::forget] endings of the other calls.

    The heap is the finite map from addresses to live allocations.  An allocation remembers the layout
    it was made with; giving it back with another layout, twice, or at another address is undefined
    behaviour, and so is reading through a pointer that is not the address of a live object of the
    expected type.  The allocator is a parameter; running out of memory (abort) is not modelled.
    Allocations that live only inside a call are dropped by Rust and are not modelled, except the
    vector whose buffer is handed out. *)
From Verif Require Import Base Group BlsModel CodecModel FfiModel.

Inductive kind := KPrivate | KPublic | KSignature.
(** [std::alloc::Layout]: of a boxed object, or of the buffer of a [Vec<u8>] with this capacity *)
Inductive layout := LBox (k : kind) | LBytes (capacity : Z).

Section Memory.
  (** The Rust types PrivateKey, PublicKey and Signature *)
  Context {SK PK SG : Type}.
  Inductive object := OPrivate (x : SK) | OPublic (x : PK) | OSignature (x : SG).
  Definition kind_of (o : object) : kind :=
    match o with OPrivate _ => KPrivate | OPublic _ => KPublic | OSignature _ => KSignature end.
  Inductive content := Object (o : object) | Bytes (l : bytes).
  Record block := Block { b_layout : layout; b_content : content }.
  Definition heap := list (Z * block).
  Definition lookup (h : heap) (p : Z) : option block :=
    match find (fun e => fst e =? p) h with Some (_, b) => Some b | None => None end.
  Definition kind_eqb (a b : kind) : bool :=
    match a, b with KPrivate, KPrivate | KPublic, KPublic | KSignature, KSignature => true | _, _ => false end.
  Definition layout_eqb (a b : layout) : bool :=
    match a, b with LBox k, LBox k' => kind_eqb k k' | LBytes n, LBytes n' => n =? n' | _, _ => false end.

  (** [GlobalAlloc::alloc]: the address, given the heap and the layout *)
  Context (address : heap -> layout -> Z).
  Definition alloc (h : heap) (b : block) : heap * Z :=
    let p := address h (b_layout b) in ((p, b) :: h, p).
  (** [GlobalAlloc::dealloc]; [None] is undefined behaviour *)
  Fixpoint dealloc (h : heap) (p : Z) (l : layout) : option heap :=
    match h with
    | [] => None
    | (p', b) :: h' =>
      if p' =? p then (if layout_eqb (b_layout b) l then Some h' else None)
      else match dealloc h' p l with Some h'' => Some ((p', b) :: h'') | None => None end
    end.

  (** [Vec<u8>]: without capacity there is no buffer and the pointer is [NonNull::dangling()], the alignment *)
  Definition dangling : Z := 1.
  Record vec := Vec { v_ptr : Z; v_len : Z; v_cap : Z }.
  (** The vector filled by the call, with whatever capacity it has grown to *)
  Definition vec_with (h : heap) (l : bytes) (cap : Z) : heap * vec :=
    let n := Z.of_nat (length l) in
    if cap =? 0 then (h, Vec dangling n 0)
    else let '(h', p) := alloc h (Block (LBytes cap) (Bytes l)) in (h', Vec p n cap).
  (** [Drop for Vec<u8>] *)
  Definition vec_drop (h : heap) (v : vec) : option heap :=
    if v_cap v =? 0 then Some h else dealloc h (v_ptr v) (LBytes (v_cap v)).
  (** [Vec::shrink_to_fit]: nothing if the capacity is the length, else the buffer is given back
      (length 0) or reallocated, which may move it *)
  Definition shrink_to_fit (h : heap) (l : bytes) (v : vec) : option (heap * vec) :=
    if v_len v <? v_cap v then
      match vec_drop h v with
      | None => None
      | Some h' => Some (vec_with h' l (v_len v))
      end
    else Some (h, v).

  (** What a call stores through its out pointers: a boxed object, a vector, or a plain value *)
  Inductive give := GBox (o : object) | GVec (l : bytes) | GValue (n : Z).
  Inductive written := WBox (k : kind) (p : Z) | WVec (p n : Z) | WValue (n : Z).
  (** [Box::into_raw(Box::new(o))]; [v.shrink_to_fit(); *out = v.as_mut_ptr(); *len = v.len() as c_int;
      mem::forget(v)] with a vector of capacity [cap] *)
  Definition give_out (h : heap) (g : give * Z) : option (heap * written) :=
    match g with
    | (GBox o, _) => let '(h', p) := alloc h (Block (LBox (kind_of o)) (Object o)) in Some (h', WBox (kind_of o) p)
    | (GVec l, cap) =>
      let '(h1, v) := vec_with h l cap in
      match shrink_to_fit h1 l v with
      | None => None
      | Some (h2, v') => Some (h2, WVec (v_ptr v') (as_c_int (v_len v')))
      end
    | (GValue n, _) => Some (h, WValue n)
    end.
  Fixpoint give_all (h : heap) (gs : list (give * Z)) : option (heap * list written) :=
    match gs with
    | [] => Some (h, [])
    | g :: gs' =>
      match give_out h g with
      | None => None
      | Some (h1, w) => match give_all h1 gs' with None => None | Some (h2, ws) => Some (h2, w :: ws) end
      end
    end.

  (** A call: the objects behind its pointer arguments determine what it does; [None]: an argument has
      the wrong type.  The capacities of the vectors accompany the outputs. *)
  Definition call := list object -> option (reply (list (give * Z))).
  (** [&*ptr] *)
  Fixpoint deref (h : heap) (ps : list Z) : option (list object) :=
    match ps with
    | [] => Some []
    | p :: ps' =>
      match lookup h p, deref h ps' with
      | Some (Block _ (Object o)), Some os => Some (o :: os)
      | _, _ => None
      end
    end.
  Inductive outcome :=
  | Done (h : heap) (b : bool) (ws : list written)
  | Aborted                       (* a panic reached the language boundary *)
  | Undefined.
  Definition run_call (h : heap) (ps : list Z) (c : call) : outcome :=
    match deref h ps with
    | None => Undefined
    | Some os =>
      match c os with
      | None => Undefined
      | Some Panics => Aborted
      | Some (Returns b None) => Done h b []
      | Some (Returns b (Some gs)) => match give_all h gs with None => Undefined | Some (h', ws) => Done h' b ws end
      end
    end.
  (** serialization.rs lines 223-230, 247-254, 259-266: destroy_private_key, destroy_public_key, destroy_signature *)
  Definition run_destroy (h : heap) (k : kind) (p : Z) : outcome :=
    if p =? 0 then Done h false []
    else match dealloc h p (LBox k) with None => Undefined | Some h' => Done h' true [] end.
  (** [c_int as usize] *)
  Definition c_int_as_usize (n : Z) : Z := n mod 2 ^ 64.
  (** lines 235-242: free_vec rebuilds a vector whose capacity is the length and drops it *)
  Definition run_free_vec (h : heap) (p n : Z) : outcome :=
    if p =? 0 then Done h false []
    else match vec_drop h (Vec p (c_int_as_usize n) (c_int_as_usize n)) with None => Undefined | Some h' => Done h' true [] end.
End Memory.
Arguments object : clear implicits. Arguments content : clear implicits. Arguments block : clear implicits.
Arguments heap : clear implicits. Arguments give : clear implicits. Arguments call : clear implicits.
Arguments outcome : clear implicits.

(** ** The calls of signatures.rs and serialization.rs on pointers *)
Definition map_reply {A B} (f : A -> B) (x : reply A) : reply B :=
  match x with Returns b o => Returns b (option_map f o) | Panics => Panics end.
Section Calls.
  Context {pr : pairing}.
  Notation G1 := (G1 pr). Notation G2 := (G2 pr).
  Context (direct composite composite_cip22 : BlsModel.hasher pr).
  Notation object := (object Z G2 G1). Notation call := (call Z G2 G1).
  Definition boxed {A} (mk : A -> object) : reply A -> option (reply (list (give Z G2 G1 * Z))) :=
    fun x => Some (map_reply (fun v => [(GBox (mk v), 0)]) x).
  Definition verdict (x : reply bool) : option (reply (list (give Z G2 G1 * Z))) :=
    Some (map_reply (fun v : bool => [(GValue (if v then 1 else 0), 0)]) x).
  (** signatures.rs lines 17-25; [sk]: the key drawn *)
  Definition call_generate_private_key (sk : Z) : call := fun _ => boxed OPrivate (Returns true (Some sk)).
  (** lines 27-41 *)
  Definition call_private_key_to_public_key : call := fun os =>
    match os with [OPrivate sk] => boxed OPublic (ffi_private_key_to_public_key sk) | _ => None end.
  (** lines 43-71 *)
  Definition call_sign_message (message extra : bytes) (use_composite use_cip22 : bool) : call := fun os =>
    match os with
    | [OPrivate sk] => boxed OSignature (ffi_sign_message direct composite composite_cip22 sk message extra use_composite use_cip22)
    | _ => None
    end.
  (** lines 73-90 *)
  Definition call_sign_pop (message : bytes) : call := fun os =>
    match os with [OPrivate sk] => boxed OSignature (ffi_sign_pop direct sk message) | _ => None end.
  (** lines 243-277 *)
  Definition call_verify_signature (message extra : bytes) (use_composite use_cip22 : bool) : call := fun os =>
    match os with
    | [OPublic pk; OSignature sig] => verdict (ffi_verify_signature direct composite composite_cip22 pk message extra sig use_composite use_cip22)
    | _ => None
    end.
  (** lines 406-425 *)
  Definition call_verify_pop (message : bytes) : call := fun os =>
    match os with [OPublic pk; OSignature sig] => verdict (ffi_verify_pop direct pk message sig) | _ => None end.
  Fixpoint signatures_of (os : list object) : option (list G1) :=
    match os with
    | [] => Some []
    | OSignature s :: os' => option_map (cons s) (signatures_of os')
    | _ => None
    end.
  (** lines 484-505 *)
  Definition call_aggregate_signatures : call := fun os =>
    match signatures_of os with Some sigs => boxed OSignature (ffi_aggregate_signatures sigs) | None => None end.
  (** serialization.rs lines 34-41 and 81-88 *)
  Definition call_deserialize_public_key (deserialize : bytes -> result G2) (data : bytes) : call := fun _ =>
    boxed OPublic (ffi_deserialize deserialize data).
  Definition call_deserialize_signature (deserialize : bytes -> result G1) (data : bytes) : call := fun _ =>
    boxed OSignature (ffi_deserialize deserialize data).
  (** lines 62-70 and 90-97; [cap]: the capacity the vector has grown to *)
  Definition call_serialize_public_key (serialize : G2 -> bytes) (cap : Z) : call := fun os =>
    match os with [OPublic pk] => Some (map_reply (fun v => [(GVec (fst v), cap)]) (ffi_serialize serialize pk)) | _ => None end.
  Definition call_serialize_signature (serialize : G1 -> bytes) (cap : Z) : call := fun os =>
    match os with [OSignature s] => Some (map_reply (fun v => [(GVec (fst v), cap)]) (ffi_serialize serialize s)) | _ => None end.
  (** The calls that only return vectors: hash_direct, hash_composite, hash_crh, hash_direct_first_step
      (signatures.rs lines 92-115, 144-213), compress_signature, compress_pubkey (serialization.rs lines
      166-216), encode_epoch_block_to_bytes (snark/epoch_block.rs lines 67-105) with the reply [x]; those
      with an attempt counter (signatures.rs lines 117-142, 215-241); encode_epoch_block_to_bytes_cip22
      (epoch_block.rs lines 16-66).  [cap], [cap']: capacities of the vectors before shrink_to_fit *)
  Definition call_bytes (x : reply (bytes * Z)) (cap : Z) : call := fun _ =>
    Some (map_reply (fun v => [(GVec (fst v), cap)]) x).
  Definition call_bytes_counter (x : reply (bytes * Z * Z)) (cap : Z) : call := fun _ =>
    Some (map_reply (fun v => [(GVec (fst (fst v)), cap); (GValue (snd v), 0)]) x).
  Definition call_bytes_pair (x : reply ((bytes * Z) * (bytes * Z))) (cap cap' : Z) : call := fun _ =>
    Some (map_reply (fun v => [(GVec (fst (fst v)), cap); (GVec (fst (snd v)), cap')]) x).
End Calls.
