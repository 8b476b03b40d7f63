(** BLAKE2s (RFC 7693) with a full 32-byte parameter block, as provided by the dependency blake2s_simd.
    Words are integers in [0, 2^32).  The digest depends on the parameters only through the parameter
    block, whose first byte is the digest length. *)
From Verif Require Import Base BitsModel EncodingModel.

Definition w32 (x : Z) : Z := x mod 2 ^ 32.
Definition rotr (x n : Z) : Z := Z.lor (Z.shiftr x n) (w32 (Z.shiftl x (32 - n))).
Definition IV : list Z :=
  [1779033703; 3144134277; 1013904242; 2773480762; 1359893119; 2600822924; 528734635; 1541459225].
Definition SIGMA : list (list nat) :=
  [[0; 1; 2; 3; 4; 5; 6; 7; 8; 9; 10; 11; 12; 13; 14; 15];
   [14; 10; 4; 8; 9; 15; 13; 6; 1; 12; 0; 2; 11; 7; 5; 3];
   [11; 8; 12; 0; 5; 2; 15; 13; 10; 14; 3; 6; 7; 1; 9; 4];
   [7; 9; 3; 1; 13; 12; 11; 14; 2; 6; 5; 10; 4; 0; 15; 8];
   [9; 0; 5; 7; 2; 4; 10; 15; 14; 1; 11; 12; 6; 8; 3; 13];
   [2; 12; 6; 10; 0; 11; 8; 3; 4; 13; 7; 5; 15; 14; 1; 9];
   [12; 5; 1; 15; 14; 13; 4; 10; 0; 7; 6; 3; 9; 2; 8; 11];
   [13; 11; 7; 14; 12; 1; 3; 9; 5; 0; 15; 4; 8; 6; 2; 10];
   [6; 15; 14; 9; 11; 3; 0; 8; 12; 2; 13; 7; 1; 4; 10; 5];
   [10; 2; 8; 4; 7; 6; 1; 5; 15; 11; 9; 14; 3; 12; 13; 0]]%nat.

Definition wnth (i : nat) (l : list Z) : Z := nth i l 0.
Fixpoint upd (i : nat) (x : Z) (l : list Z) : list Z :=
  match l, i with
  | [], _ => []
  | _ :: l', O => x :: l'
  | y :: l', S i' => y :: upd i' x l'
  end.
Definition mix (a b c d : nat) (x y : Z) (v : list Z) : list Z :=
  let va := w32 (wnth a v + wnth b v + x) in
  let vd := rotr (Z.lxor (wnth d v) va) 16 in
  let vc := w32 (wnth c v + vd) in
  let vb := rotr (Z.lxor (wnth b v) vc) 12 in
  let va := w32 (va + vb + y) in
  let vd := rotr (Z.lxor vd va) 8 in
  let vc := w32 (vc + vd) in
  let vb := rotr (Z.lxor vb vc) 7 in
  upd a va (upd b vb (upd c vc (upd d vd v))).
Definition round (m : list Z) (v : list Z) (s : list nat) : list Z :=
  let x i := wnth (nth i s O) m in
  let v := mix 0 4 8 12 (x 0%nat) (x 1%nat) v in
  let v := mix 1 5 9 13 (x 2%nat) (x 3%nat) v in
  let v := mix 2 6 10 14 (x 4%nat) (x 5%nat) v in
  let v := mix 3 7 11 15 (x 6%nat) (x 7%nat) v in
  let v := mix 0 5 10 15 (x 8%nat) (x 9%nat) v in
  let v := mix 1 6 11 12 (x 10%nat) (x 11%nat) v in
  let v := mix 2 7 8 13 (x 12%nat) (x 13%nat) v in
  mix 3 4 9 14 (x 14%nat) (x 15%nat) v.

Fixpoint le_number (l : bytes) : Z := match l with [] => 0 | b :: l' => b + 256 * le_number l' end.
Definition words (l : bytes) : list Z := map le_number (chunks 4 l).
Definition compress (h : list Z) (block : bytes) (t : Z) (last : bool) : list Z :=
  let v := h ++ IV in
  let v := upd 12 (Z.lxor (wnth 12 v) (w32 t)) v in
  let v := upd 13 (Z.lxor (wnth 13 v) (w32 (Z.shiftr t 32))) v in
  let v := if last then upd 14 (Z.lxor (wnth 14 v) (2 ^ 32 - 1)) v else v in
  let v := fold_left (round (words block)) SIGMA v in
  map (fun i => w32 (Z.lxor (wnth i h) (Z.lxor (wnth i v) (wnth (i + 8) v)))) (seq 0 8).

Fixpoint absorb (h : list Z) (t : Z) (blocks : list bytes) : list Z :=
  match blocks with
  | [] => compress h (repeat 0 64) t true
  | [b] => compress h (b ++ repeat 0 (64 - length b)) (t + Z.of_nat (length b)) true
  | b :: rest => absorb (compress h b (t + 64) false) (t + 64) rest
  end.

Definition blake2s (pb : bytes) (msg : bytes) : bytes :=
  let h := map (fun i => Z.lxor (wnth i IV) (wnth i (words pb))) (seq 0 8) in
  firstn (Z.to_nat (nth 0 pb 0)) (flat_map (le_bytes 4) (absorb h 0 (chunks 64 msg))).
