(** C64: the memory handed to C and given back. *)
From Coq Require Import Permutation.
From Verif Require Import Base Group BlsModel CodecModel FfiModel MemoryModel MemorySpec MemoryProofs MemoryUse.

(** A client that follows the protocol never runs into undefined behaviour, whatever the calls compute. *)
Theorem C64_safe : forall SK PK SG (address : heap SK PK SG -> layout -> Z), proper_allocator address ->
  forall h0 h held a, NoDup (map fst h0) -> session address h0 (h, held) -> allowed held a -> perform address h a <> Undefined.
Proof. intros. eapply session_safe; eassumption. Qed.
Theorem C64_release : forall SK PK SG (address : heap SK PK SG -> layout -> Z), proper_allocator address ->
  forall h0 h held x, NoDup (map fst h0) -> session address h0 (h, held) -> In x held ->
  exists h', perform address h (ARelease x) = Done h' true [].
Proof. intros. eapply session_release; eassumption. Qed.
(** The live allocations are those of before and one per handle held, so releasing all of them leaks nothing. *)
Theorem C64_accounts : forall SK PK SG (address : heap SK PK SG -> layout -> Z), proper_allocator address ->
  forall h0 h held, NoDup (map fst h0) -> session address h0 (h, held) ->
  exists hx, Permutation h (hx ++ h0) /\ Permutation (map (fun e => (fst e, b_layout (snd e))) hx) (flat_map footprint held).
Proof. intros. eapply session_accounts; eassumption. Qed.
Theorem C64_no_leak : forall SK PK SG (address : heap SK PK SG -> layout -> Z), proper_allocator address ->
  forall h0 h, NoDup (map fst h0) -> session address h0 (h, []) -> Permutation h h0.
Proof. intros. eapply session_no_leak; eassumption. Qed.
(** What a call returns is at the address it returns, which was not in use. *)
Theorem C64_delivers : forall SK PK SG (address : heap SK PK SG -> layout -> Z), proper_allocator address ->
  forall h0 h held args c h' b ws, NoDup (map fst h0) -> session address h0 (h, held) -> allowed held (ACall args c) ->
  perform address h (ACall args c) = Done h' b ws ->
  exists os, deref h (map snd args) = Some os /\
    ((c os = Some (Returns b None) /\ h' = h /\ ws = []) \/
     (exists gs, c os = Some (Returns b (Some gs)) /\ Forall2 (fun g w => delivered h' (fst g) w) gs ws)) /\
    (forall x e, In x (handles ws) -> In e (footprint x) -> ~ In (fst e) (map fst h)).
Proof. intros. eapply session_delivers; eassumption. Qed.
(** Objects and buffers keep their contents until they are released. *)
Theorem C64_unchanged : forall SK PK SG (address : heap SK PK SG -> layout -> Z), proper_allocator address ->
  forall h0 s a b s' p blk, NoDup (map fst h0) -> session address h0 s -> step address s a b s' ->
  lookup (fst s) p = Some blk -> (forall x, In x (released a) -> pointer x <> p) -> lookup (fst s') p = Some blk.
Proof. intros. eapply session_frame; eassumption. Qed.
(** Null is refused and nothing happens. *)
Theorem C64_null : forall SK PK SG (h : heap SK PK SG) k n, run_destroy h k 0 = Done h false [] /\ run_free_vec h 0 n = Done h false [].
Proof. intros. split; reflexivity. Qed.
(** A call that returns false has allocated and stored nothing. *)
Theorem C64_failed : forall pr (address : heap Z (G2 pr) (G1 pr) -> layout -> Z) h ps c h' ws, clean c ->
  run_call address h ps c = Done h' false ws -> h' = h /\ ws = [].
Proof. intros. eapply failed_call; eassumption. Qed.
(** The entry points keep their side of the protocol. *)
Theorem C64_entry_points : forall pr (direct composite cip22 : BlsModel.hasher pr) sk m x f f' n,
  meets (@call_generate_private_key pr sk) [] /\ meets (@call_private_key_to_public_key pr) [KPrivate] /\
  meets (call_sign_message direct composite cip22 m x f f') [KPrivate] /\ meets (call_sign_pop direct m) [KPrivate] /\
  meets (call_verify_signature direct composite cip22 m x f f') [KPublic; KSignature] /\ meets (call_verify_pop direct m) [KPublic; KSignature] /\
  meets (@call_aggregate_signatures pr) (repeat KSignature n) /\
  (forall d data, meets (@call_deserialize_public_key pr d data) []) /\ (forall d data, meets (@call_deserialize_signature pr d data) []) /\
  (forall s cap, (forall v, small (s v) cap) -> meets (@call_serialize_public_key pr s cap) [KPublic]) /\
  (forall s cap, (forall v, small (s v) cap) -> meets (@call_serialize_signature pr s cap) [KSignature]).
Proof.
  intros. split; [apply meets_generate|]. split; [apply meets_to_public|]. split; [apply meets_sign|]. split; [apply meets_sign_pop|].
  split; [apply meets_verify|]. split; [apply meets_verify_pop|]. split; [apply meets_aggregate|].
  split; [apply meets_deserialize_public_key|]. split; [apply meets_deserialize_signature|].
  split; [apply meets_serialize_public_key|apply meets_serialize_signature].
Qed.
Theorem C64_byte_calls : forall pr ks,
  (forall y cap, (forall l n, y = Ok (l, n) -> small l cap) -> meets (@call_bytes pr (convert_result_to_bool (store y)) cap) ks) /\
  (forall y cap, (forall l n c, y = Ok (l, n, c) -> small l cap) -> meets (@call_bytes_counter pr (convert_result_to_bool (store y)) cap) ks) /\
  (forall y cap cap', (forall l n l' n', y = Ok ((l, n), (l', n')) -> small l cap /\ small l' cap') ->
    meets (@call_bytes_pair pr (convert_result_to_bool (store y)) cap cap') ks).
Proof. intros pr ks. split; [intros; apply meets_bytes; assumption|]. split; intros; [apply meets_bytes_counter|apply meets_bytes_pair]; assumption. Qed.
Theorem C64_length : forall pr (address : heap Z (G2 pr) (G1 pr) -> layout -> Z) h ps b l cap h' ws, Z.of_nat (length l) <= cap ->
  run_call address h ps (call_bytes (Returns b (Some (out_vec l))) cap) = Done h' b ws -> exists p, ws = [WVec p (snd (out_vec l))].
Proof. intros. eapply bytes_length; eassumption. Qed.
(** A whole session: generate, derive the public key, sign, verify, destroy the three objects. *)
Theorem C64_life_cycle : forall pr (direct composite cip22 : BlsModel.hasher pr) (address : heap Z (G2 pr) (G1 pr) -> layout -> Z),
  proper_allocator address -> forall h sk m x f f' s, ffi_sign_message direct composite cip22 sk m x f f' = Returns true (Some s) ->
  exists h1 p1 h2 p2 h3 p3 h4 h5,
    run_call address h [] (call_generate_private_key sk) = Done h1 true [WBox KPrivate p1] /\
    run_call address h1 [p1] call_private_key_to_public_key = Done h2 true [WBox KPublic p2] /\
    run_call address h2 [p1] (call_sign_message direct composite cip22 m x f f') = Done h3 true [WBox KSignature p3] /\
    run_call address h3 [p2; p3] (call_verify_signature direct composite cip22 m x f f') = Done h3 true [WValue 1] /\
    run_destroy h3 KPrivate p1 = Done h4 true [] /\ run_destroy h4 KPublic p2 = Done h5 true [] /\ run_destroy h5 KSignature p3 = Done h true [].
Proof. intros. eapply life_cycle; eassumption. Qed.
(** The protocol cannot be relaxed: a second release, another destructor or another length is undefined. *)
Theorem C64_double_release : forall SK PK SG (address : heap SK PK SG -> layout -> Z), proper_allocator address ->
  forall h0 h held x h', NoDup (map fst h0) -> session address h0 (h, held) -> In x held -> footprint x <> [] ->
  perform address h (ARelease x) = Done h' true [] -> perform address h' (ARelease x) = Undefined.
Proof. intros. eapply double_release; eassumption. Qed.
Theorem C64_wrong_destructor : forall SK PK SG (address : heap SK PK SG -> layout -> Z), proper_allocator address ->
  forall h0 h held k k' p n, NoDup (map fst h0) -> session address h0 (h, held) -> In (HBox k p) held ->
  (k' <> k -> run_destroy h k' p = Undefined) /\ (c_int_as_usize n <> 0 -> run_free_vec h p n = Undefined).
Proof. intros. eapply wrong_destructor; eassumption. Qed.
Theorem C64_wrong_length : forall SK PK SG (address : heap SK PK SG -> layout -> Z), proper_allocator address ->
  forall h0 h held p n n', NoDup (map fst h0) -> session address h0 (h, held) -> In (HVec p n) held -> n <> 0 ->
  c_int_as_usize n' <> n -> c_int_as_usize n' <> 0 -> run_free_vec h p n' = Undefined.
Proof. intros. eapply wrong_length; eassumption. Qed.
(** A vector of 2^31 bytes or more cannot be given back with the length it was reported to have. *)
Theorem C64_long_buffer : forall SK PK SG (address : heap SK PK SG -> layout -> Z), proper_allocator address ->
  forall h l cap h' p n, 2 ^ 31 <= Z.of_nat (length l) <= cap -> cap < 2 ^ 63 -> give_out address h (GVec l, cap) = Some (h', WVec p n) ->
  run_free_vec h' p n = Undefined \/ (run_free_vec h' p n = Done h' true [] /\ In p (map fst h') /\ ~ In p (map fst h)).
Proof. intros. eapply long_buffer; eassumption. Qed.

Print Assumptions C64_safe.
Print Assumptions C64_release.
Print Assumptions C64_accounts.
Print Assumptions C64_no_leak.
Print Assumptions C64_delivers.
Print Assumptions C64_unchanged.
Print Assumptions C64_null.
Print Assumptions C64_failed.
Print Assumptions C64_entry_points.
Print Assumptions C64_byte_calls.
Print Assumptions C64_length.
Print Assumptions C64_life_cycle.
Print Assumptions C64_double_release.
Print Assumptions C64_wrong_destructor.
Print Assumptions C64_wrong_length.
Print Assumptions C64_long_buffer.
