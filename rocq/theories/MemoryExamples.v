(** Concrete cases meeting the hypotheses of C64. *)
From Coq Require Import Permutation.
From Verif Require Import Base Constants Group Instances BlsModel BlsSpec BlsExamples CodecModel FfiModel FfiExamples MemoryModel MemorySpec MemoryProofs MemoryUse PropMemory.

Notation toy_heap := (heap Z (G2 zr_pairing) (G1 zr_pairing)).
(** An allocator: one past the highest address in use, above the dangling pointer *)
Definition bump (h : toy_heap) (l : layout) : Z := 1 + fold_right (fun e m => Z.max (fst e) m) 1 h.
Lemma bump_above (h : toy_heap) e : In e h -> fst e < bump h (LBytes 0).
Proof.
  unfold bump. induction h as [|e' h IH]; intros [].
  - subst. cbn [fold_right]. lia.
  - cbn [fold_right]. specialize (IH H). lia.
Qed.
Example ex_allocator : proper_allocator bump.
Proof.
  intros h l. split.
  - unfold bump. assert (H : 1 <= fold_right (fun e m => Z.max (fst e) m) 1 h) by (induction h; cbn [fold_right]; lia). lia.
  - intros I. apply in_map_iff in I. destruct I as (e & E & I). apply bump_above in I. unfold bump in *. lia.
Qed.
(** The client holds a key and its four serialized bytes; the vector had grown to eight. *)
Definition toy_bytes (pk : G2 zr_pairing) : bytes := [1; 2; 3; 4].
Definition start : toy_heap := [].
Definition after_key : toy_heap := [(2, Block (LBox KPrivate) (Object (OPrivate 7)))].
Definition after_public : toy_heap := (3, Block (LBox KPublic) (Object (OPublic (to_public 7)))) :: after_key.
Definition after_bytes : toy_heap := (4, Block (LBytes 4) (Bytes [1; 2; 3; 4])) :: after_public.
Example ex_session : session bump start (after_bytes, [HBox KPrivate 2; HBox KPublic 3; HVec 4 4]).
Proof.
  refine (session_step _ _ (after_public, [HBox KPrivate 2; HBox KPublic 3]) (ACall [(KPublic, 3)] (call_serialize_public_key toy_bytes 8)) true _ _ _).
  - refine (session_step _ _ (after_key, [HBox KPrivate 2]) (ACall [(KPrivate, 2)] call_private_key_to_public_key) true _ _ _).
    + refine (session_step _ _ (start, []) (ACall [] (call_generate_private_key 7)) true _ _ _).
      * apply session_start.
      * split.
        -- split; [constructor|]. destruct (meets_generate (pr := zr_pairing) 7) as (A & B & _). split; assumption.
        -- exists [WBox KPrivate 2]. split; [reflexivity|apply Permutation_refl].
    + split.
      * split; [constructor; [left; reflexivity|constructor]|]. destruct (meets_to_public (pr := zr_pairing)) as (A & B & _). split; assumption.
      * exists [WBox KPublic 3]. split; [reflexivity|apply Permutation_refl].
  - split.
    + split; [constructor; [right; left; reflexivity|constructor]|].
      destruct (meets_serialize_public_key (pr := zr_pairing) toy_bytes 8) as (A & B & _); [|split; assumption].
      intros v. split; cbn; lia.
    + exists [WVec 4 4]. split; [reflexivity|apply Permutation_refl].
Qed.
Example ex_release : perform bump after_bytes (ARelease (HVec 4 4)) = Done after_public true [] /\
  perform bump after_public (ARelease (HVec 4 4)) = Undefined /\
  run_free_vec after_bytes 4 3 = Undefined /\ run_destroy after_bytes KPublic 2 = Undefined /\
  perform bump after_public (ARelease (HBox KPrivate 2)) = Done [(3, Block (LBox KPublic) (Object (OPublic (to_public 7))))] true [].
Proof. repeat split; reflexivity. Qed.
Example ex_life_cycle : exists s, ffi_sign_message toy toy2 toy3 7 [1; 2] [3] true true = Returns true (Some s).
Proof. eexists. reflexivity. Qed.
(** A call that fails: the message does not hash. *)
Example ex_failed : run_call bump after_key [2] (call_sign_message toy toy2 toy3 [255] [3] false false) = Done after_key false [] /\
  clean (call_sign_message toy toy2 toy3 [255] [3] false false).
Proof. split; [reflexivity|apply meets_sign]. Qed.
Example ex_long : exists l : bytes, 2 ^ 31 <= Z.of_nat (length l) <= 2 ^ 31 /\ 2 ^ 31 < 2 ^ 63.
Proof. exists (repeat 0 (Z.to_nat (2 ^ 31))). rewrite repeat_length, Z2Nat.id by lia. lia. Qed.
