(** Specification of the symbol hash functions and of the lookup procedures
    the dynamic loader runs on .hash and .gnu.hash sections (as bytes). *)
From Verif Require Export SpecBase.

(** * Hash functions *)

(** gABI "System V" hash, as arithmetic on 32-bit words: shift in a byte, fold
    the top four bits back at bit 4 and drop them. *)
Definition gabi_step (h b : N) : N :=
  let v := (16 * h + b) mod 2^32 in
  N.lxor (v mod 2^28) (16 * (v / 2^28)).
Definition gabi_hash (name : bytes) : N := fold_left gabi_step name 0.

(** DT_GNU_HASH hash: Horner evaluation with factor 33 over the integers,
    reduced modulo 2^32 once at the end. *)
Definition gnu_hash (name : bytes) : N :=
  fold_left (fun h b => 33 * h + b) name 5381 mod 2^32.

(** * Reading tables *)

(** [k]-th 32-bit word of a section *)
Definition w32 (data : bytes) (k : N) : option N := rd 4 data (4 * k).

(** ** .hash: words nbucket, nchain, bucket[nbucket], chain[nchain]

    The gABI procedure: start at bucket[h mod nbucket], follow chain[] until
    index 0. [sysv_visits data nbucket y l]: starting at [y], exactly the
    symbol indices [l] are visited, in this order, before index 0 ends it. *)
Inductive sysv_visits (data : bytes) (nbucket : N) : N -> list N -> Prop :=
| visits_end : sysv_visits data nbucket 0 []
| visits_step y next l :
    y <> 0 -> w32 data (2 + nbucket + y) = Some next ->
    sysv_visits data nbucket next l -> sysv_visits data nbucket y (y :: l).

(** The same as a search: the first visited index accepted by [accept]. *)
Fixpoint sysv_search (fuel : nat) (data : bytes) (nbucket : N) (accept : N -> bool) (y : N) : option N :=
  match fuel with
  | O => None
  | S fuel' =>
      if y =? 0 then None
      else if accept y then Some y
      else next ← w32 data (2 + nbucket + y); sysv_search fuel' data nbucket accept next
  end.
(** The number of chain words bounds the number of steps of a well-formed table. *)
Definition sysv_lookup (data : bytes) (accept : N -> bool) (h : N) : option N :=
  nbucket ← w32 data 0;
  nchain ← w32 data 1;
  y ← w32 data (2 + h mod nbucket);
  sysv_search (S (N.to_nat nchain)) data nbucket accept y.

(** ** .gnu.hash: words nbuckets, symoffset, bloom_size, bloom_shift; then
    bloom_size 64-bit words; then buckets[nbuckets] and the chain words. *)

(** The bloom filter test of a 64-bit loader ([bloom_size] is a power of two
    and used as a mask). *)
Definition bloom_pass (data : bytes) (h : N) : option bool :=
  size ← w32 data 2;
  shift ← w32 data 3;
  word ← rd 8 data (16 + 8 * N.land (h / 64) (size - 1));
  Some (N.testbit word (h mod 64) && N.testbit word ((h / 2 ^ shift) mod 64)).

(** Walking a chain from symbol index [y]: compare hashes without their lowest
    bit; an odd chain word ends the chain. [None] when a read falls outside
    the section. *)
Fixpoint gnu_search (fuel : nat) (data : bytes) (chain0 symoffset : N) (accept : N -> bool) (h y : N)
  : option (option N) :=
  match fuel with
  | O => None
  | S fuel' =>
      c ← w32 data (chain0 + (y - symoffset));
      if (c / 2 =? h / 2) && accept y then Some (Some y)
      else if N.odd c then Some None
      else gnu_search fuel' data chain0 symoffset accept h (y + 1)
  end.
(** The whole lookup; [Some None] is "not there". *)
Definition gnu_lookup (data : bytes) (accept : N -> bool) (h : N) : option (option N) :=
  nbuckets ← w32 data 0;
  symoffset ← w32 data 1;
  size ← w32 data 2;
  pass ← bloom_pass data h;
  if (pass : bool) then
    y ← w32 data (4 + 2 * size + h mod nbuckets);
    if y <? symoffset then Some None
    else gnu_search (length data) data (4 + 2 * size + nbuckets) symoffset accept h y
  else Some None.
