(** Inputs a linker has no reason to refuse. *)
From Verif Require Export SpecErrors SpecMissing SpecPlt.

(** A loaded object has a global or weak symbol of that name (not a section's). *)
Definition wants (es : list (string * elf_obj)) (n : string) : Prop := exists y, y ∈ named n (all_syms es) /\ binding (yi_sym y) <> 0.
(** Every name that is wanted is there: it is not empty, its symbols have
    standard bindings, its definitions outside the sections are global, and an
    object, the linker or a library provides it. *)
Definition all_provided (wd : world) (lo : lib_oracle) (l : linker) (fuel : nat) : Prop :=
  forall es evs n, loading wd lo l fuel es evs -> wants es n -> n <> "" /\ all_standard n (all_syms es) /\ firm es n /\ provided wd l es n.
(** No error has a cause in the inputs. *)
Record faultless (wd : world) (l : linker) : Prop := {
  ft_create : wd_can_create wd = true;
  ft_read : ~ unreadable wd l;
  ft_names : ~ nameless wd l;
  ft_wide : forall t, ~ narrow_reloc wd l t;
  ft_once : forall n p, ~ twice wd l n p }.
(** A relocation of an input that is not applied: its section is not loaded, or
    its value cannot be encoded. *)
Definition stuck (wd : world) (lo : lib_oracle) (l : linker) (fuel : nat) : Prop :=
  exists wr w4 w5 w6 s c rel r, resolve wd lo l fuel = Ok wr /\ laid_out (lo_writer lo) wr w4 /\ patch_plt_and_got_plt w4 = Ok w5 /\ handle_special_symbols w5 = Ok w6 /\
    s ∈ w_sections w6 /\ c ∈ sc_chunks s /\ (rel, r) ∈ c_relocations c /\ of_input wd l rel /\
    (c_address c = None \/
     exists a data sym0 sym, c_address c = Some a /\ length data = length (c_data c) /\ syt_get (w_symtab w6) r = Some sym0 /\ alike sym0 sym /\
       ~ can_apply a data rel sym (w_dynsym w6) (sh_addr (hdr_of 5 (w_sections w6))) (sh_addr (hdr_of 7 (w_sections w6)))).
