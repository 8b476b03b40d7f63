(** Vocabulary for the hasher properties: the parameter blocks of the BLAKE2X specification, byte by byte. *)
From Verif Require Import Base EncodingModel Blake2 HasherModel.

(** A domain as BLAKE2 sees it: zero-padded on the right to 8 bytes. *)
Definition domain8 (d : bytes) : bytes := d ++ repeat 0 (8 - length d).
(** Root node (the CRH): digest 32, no key, fanout 1, depth 1, leaf length 0, node offset 0, XOF length. *)
Definition root_block (len : Z) (d : bytes) : bytes :=
  [32; 0; 1; 1; 0; 0; 0; 0; 0; 0; 0; 0; len mod 256; (len / 256) mod 256; 0; 0; 0; 0; 0; 0; 0; 0; 0; 0] ++ domain8 d.
(** Expansion node [i]: fanout 0, depth 0, leaf length 32, node offset [i], XOF length, inner length 32. *)
Definition expand_block (i len : Z) (d : bytes) : bytes :=
  [Z.min 32 (len - 32 * i); 0; 0; 0; 32; 0; 0; 0;
   i mod 256; (i / 256) mod 256; (i / 65536) mod 256; (i / 16777216) mod 256;
   len mod 256; (len / 256) mod 256; 0; 32; 0; 0; 0; 0; 0; 0; 0; 0] ++ domain8 d.
