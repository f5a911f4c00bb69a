(** C106: which relocations are applied; and which of an input's stop the link. *)
From Verif Require Import SpecApply SpecCrash ProofApply ProofCrash DemoLink PropReloc PropCrash PropTotal PropResolve PropScan.

(** * C106 *)

(** A relocation is applied exactly when it can be: its type is handled, its
    symbol has the slot it uses, the field lies in the section, the instruction
    around it is one of the known, the value and all sums on the way fit. *)
Theorem C106_applied : forall addr data rel sym dyn got plt,
  (exists data', apply_relocation addr data rel sym dyn got plt = Ok data') <-> can_apply addr data rel sym dyn got plt.
Proof.
  intros addr data rel sym dyn got plt. destruct (apply_okp addr data rel sym dyn got plt) as [[H1 H2]|[[p H1] H2]]; [tauto|]. split; [intros (d & H); rewrite H1 in H; discriminate H|intros H; destruct (H2 H)].
Qed.
Print Assumptions C106_applied.
(** All others are a crash, never an error message. *)
Theorem C106_refused : forall addr data rel sym dyn got plt,
  (exists p, apply_relocation addr data rel sym dyn got plt = Panic p) <-> ~ can_apply addr data rel sym dyn got plt.
Proof.
  intros addr data rel sym dyn got plt. destruct (apply_okp addr data rel sym dyn got plt) as [[[d H1] H2]|[H1 H2]]; [|tauto]. split; [intros (p & H); rewrite H1 in H; discriminate H|intros H; destruct (H H2)].
Qed.
Print Assumptions C106_refused.
(** A call 2^31 - 4 bytes away is in reach, one byte further is not. *)
Example C106_case : can_apply 0x400000 (replicate 5 0) (ex_rel 1 2 (-4)) (ex_sym 1 (0x400001 + 2 ^ 31 + 3) None None None) (ex_tab []) 0 0 /\
  ~ can_apply 0x400000 (replicate 5 0) (ex_rel 1 2 (-4)) (ex_sym 1 (0x400001 + 2 ^ 31 + 4) None None None) (ex_tab []) 0 0.
Proof.
  split; [apply C106_applied|apply C106_refused]; eexists; vm_compute; reflexivity.
Qed.
(** Loading a variable's address: the instruction before the field decides. *)
Example C106_mov_case : can_apply 0x400000 [0x48; 0x8b; 0x05; 0; 0; 0; 0] (ex_rel 3 42 (-4)) (ex_sym 1 0x404000 None None None) (ex_tab []) 0 0 /\
  ~ can_apply 0x400000 [0x48; 0x3b; 0x05; 0; 0; 0; 0] (ex_rel 3 42 (-4)) (ex_sym 1 0x404000 None None None) (ex_tab []) 0 0.
Proof.
  split; [apply C106_applied|apply C106_refused]; eexists; vm_compute; reflexivity.
Qed.

(** * C105 *)

(** A link that crashes does so in the PLT, or for a relocation of an input whose
    section has no address or that cannot be applied, or because there are more
    than 1170 program headers. *)
Theorem C105_relocation_partial : forall wd lo l U fuel p, valid_orders lo -> sound_inputs wd l -> names_within wd l U -> room U <= 2 ^ 32 -> truthful wd l -> (11 * (1 + length U) < fuel)%nat ->
  plain_libs wd l -> plain_section_symbols wd l -> short_tables wd lo l fuel -> (link wd lo l fuel).2 = Panic p ->
  exists wr w4, resolve wd lo l fuel = Ok wr /\ laid_out (lo_writer lo) wr w4 /\
    (patch_plt_and_got_plt w4 = Panic p \/ 1170 < N.of_nat (length (w_program_headers w4)) \/
     exists w5 w6 s c rel r, patch_plt_and_got_plt w4 = Ok w5 /\ handle_special_symbols w5 = Ok w6 /\
       s ∈ w_sections w6 /\ c ∈ sc_chunks s /\ (rel, r) ∈ c_relocations c /\ of_input wd l rel /\
       (c_address c = None \/
        exists a data sym0 sym, c_address c = Some a /\ length data = length (c_data c) /\ syt_get (w_symtab w6) r = Some sym0 /\ alike sym0 sym /\
          ~ can_apply a data rel sym (w_dynsym w6) (sh_addr (hdr_of id_got (w_sections w6))) (sh_addr (hdr_of id_plt (w_sections w6))))).
Proof.
  intros wd lo l U fuel p HO HS HU HR HT HF PL HN HB H. destruct (C105_place _ _ _ _ _ _ HO HS HU HR HT HF PL HN HB H) as (wr & w4 & E1 & E2 & K). exists wr, w4. split; [exact E1|]. split; [exact E2|].
  destruct K as [K|(w5 & w6 & K5 & K6 & [(s & c & rel & r & H1 & H2 & H3 & H4 & H5)|[_ K]])]; [by left| |].
  - right. right. exists w5, w6, s, c, rel, r. split; [exact K5|]. split; [exact K6|]. split; [exact H1|]. split; [exact H2|]. split; [exact H3|]. split; [exact H4|].
    destruct H5 as [[H5 _]|(a & data & sym0 & sym & A1 & A2 & A3 & A4 & A5)]; [by left|]. right. exists a, data, sym0, sym. split; [exact A1|]. split; [exact A2|]. split; [exact A3|]. split; [exact A4|]. apply C106_refused. exists p. exact A5.
  - right. left. pose proof (N.mod_le (N.of_nat (length (w_program_headers w4))) (2 ^ 16) ltac:(discriminate)). lia.
Qed.
Print Assumptions C105_relocation_partial.
