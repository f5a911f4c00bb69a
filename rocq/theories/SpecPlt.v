(** What a link of ordinary inputs needs in order not to crash. *)
From Verif Require Export SpecCrash SpecApply.

(** The sections .plt (number 7) and .got.plt (number 6) end in the first 2 GB. *)
Definition plt_in_reach (w : writer) : Prop :=
  sh_addr (hdr_of 7 (w_sections w)) + sh_size (hdr_of 7 (w_sections w)) <= 2 ^ 31 /\
  sh_addr (hdr_of 6 (w_sections w)) + sh_size (hdr_of 6 (w_sections w)) <= 2 ^ 31.
(** A link of moderate size: at most 580 output sections of together at most
    1 GB, as sized before the layout. *)
Definition size_of (l : list section) : N := foldr (fun s k => sh_size (sc_sh s) + k) 0 l.
Definition moderate (wd : world) (lo : lib_oracle) (l : linker) (fuel : nat) : Prop :=
  forall wr w1, resolve wd lo l fuel = Ok wr -> assign_sizes (lo_writer lo) wr = Ok w1 -> (length (w_sections w1) <= 580)%nat /\ size_of (w_sections w1) <= 2 ^ 30.
