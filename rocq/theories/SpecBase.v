(** Reading little-endian data back: the consumer's side of the encodings. *)
From Verif Require Export ModelBase.

(** Value of a little-endian byte sequence. *)
Fixpoint le_val (l : bytes) : N :=
  match l with
  | [] => 0
  | b :: l' => b + 256 * le_val l'
  end.

(** The [n]-byte unsigned number at byte offset [off]; [None] past the end. *)
Definition rd (n : nat) (data : bytes) (off : N) : option N :=
  let s := take n (drop (N.to_nat off) data) in
  if decide (length s = n) then Some (le_val s) else None.

(** Signed reading: two's complement. *)
Definition signed (bits : Z) (v : N) : Z :=
  if (Z.of_N v <? 2 ^ (bits - 1))%Z then Z.of_N v else (Z.of_N v - 2 ^ bits)%Z.
Definition rd_z (n : nat) (data : bytes) (off : N) : option Z :=
  signed (8 * Z.of_nat n) <$> rd n data off.
