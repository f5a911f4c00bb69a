(** The output file as other programs see it (C80). *)
From Verif Require Import SpecOutput DemoLink PropLayout PropFile PropExec ProofOutput.

(** After a successful link the file is there, complete and executable, and no
    other file has changed (0x1ed is rwxr-xr-x). Missing: write-only sections, see [C36_refuted]. *)
Theorem C80_partial : forall wd lo l fuel w secs, valid_oracle (lo_writer lo) -> links wd lo l fuel w secs -> plain_inputs wd l ->
  (forall s, s ∈ secs -> ¬ lone_write s) -> stt_total_len (w_shstrtab w) < 2^32 -> headers_fit w secs -> blen secs <= 0xff00 -> (link wd lo l fuel).2 = Ok tt ->
  exists data h, (forall dflt before, file_after dflt (opt_output (lk_options l)) before (link wd lo l fuel).1 = Some (data, 0x1ed)) /\
    (forall dflt before path, path <> opt_output (lk_options l) -> file_after dflt path before (link wd lo l fuel).1 = before) /\
    rd_ehdr data 0 = Some h /\ x86_64_executable h /\
    forall i s, secs !! i = Some s -> exists n, sec_name w s = Some n /\ (nonul n -> section_name_in data (N.of_nat i) = Some (string_bytes n)).
Proof.
  intros wd lo l fuel w secs V L P HW Ht HF Hlen Hok. destruct (link wd lo l fuel) as [effs r] eqn:HL. cbn [fst snd] in *. subst r.
  assert (Hd : exists data, effs = [ECreate (opt_output (lk_options l)); EWrite (opt_output (lk_options l)) data; EChmod (opt_output (lk_options l)) 493]).
  { unfold link in HL. destruct (wd_can_create wd); [|discriminate HL]. destruct (link_bytes wd lo l fuel) as [d| |]; [|discriminate HL|discriminate HL]. injection HL as <-. by exists d. }
  destruct Hd as [data Heff]. assert (Hw : EWrite (opt_output (lk_options l)) data ∈ effs) by (rewrite Heff; right; left).
  destruct (C36_partial _ _ _ _ _ _ _ _ _ V L P HW Ht HF HL Hw) as [_ (R1 & _ & R3 & R4)].
  destruct (links_outcome _ _ _ _ _ _ L) as (w0&wr&ws&w1&extra&null&rest&rest'&st&w3&w4&w5&w6&w7&null'&out&O). destruct (eh_final O) as [HX _].
  destruct (shstr_holds O (proj2 L) V P Ht) as (b & Hb & H3 & _ & Hbl & Hn); [lia|]. destruct (final_headers O) as (_ & _ & _ & _ & _ & _ & _ & Ens & _ & Ese & _).
  exists data, (w_eh w). split; [|split; [|split; [exact R1|split; [exact HX|]]]].
  - intros dflt before. subst effs. cbn [file_after foldl file_step]. rewrite !decide_True by reflexivity. reflexivity.
  - intros dflt before path Hp. subst effs. unfold file_after. cbn [foldl file_step]. rewrite !decide_False by congruence. reflexivity.
  - intros i s Hi. pose proof (elem_of_list_lookup_2 _ _ _ Hi) as Hs. destruct (all_named O (proj2 L) V P s Ht Hs) as [n En]. exists n. split; [exact En|]. intros Hnn.
    destruct (Hn s n Hs En) as [Hlt Hc]. specialize (Hc Hnn). unfold section_name_in. rewrite R1. cbn [mbind option_bind].
    assert (Hx : e_shstrndx (w_eh w) < 0xff00). { apply lookup_lt_Some in Hb. unfold blen in Hlen. lia. } replace (0xff00 <=? e_shstrndx (w_eh w)) with false by (symmetry; apply N.leb_gt; exact Hx).
    rewrite (rd_table_lookup _ _ _ _ _ _ i (sc_sh s) R3) by (rewrite list_lookup_fmap, Hi; reflexivity). cbn [mbind option_bind].
    assert (Rb : rd_shdr data (e_shoff (w_eh w) + e_shentsize (w_eh w) * e_shstrndx (w_eh w)) = Some (sc_sh b)).
    { rewrite <- (N2Nat.id (e_shstrndx (w_eh w))). eapply rd_table_lookup; [exact R3|]. rewrite list_lookup_fmap, Hb. reflexivity. }
    rewrite Rb. cbn [mbind option_bind]. rewrite H3. cbn [N.eqb Pos.eqb].
    assert (Efs : filesz b = memsz b). { unfold filesz, is_nobits. rewrite H3. reflexivity. }
    replace (sh_name (sc_sh s) <? sh_size (sc_sh b)) with true by (symmetry; apply N.ltb_lt; change (sh_size (sc_sh b)) with (memsz b); rewrite <- Efs, <- Hbl; exact Hlt).
    eapply cstr_file; [exact (R4 b (elem_of_list_lookup_2 _ _ _ Hb))|exact Hc].
Qed.
Print Assumptions C80_partial.

(** A link that fails never sets a permission bit. *)
Theorem C80_failed : forall wd lo l fuel dflt path before c m, (link wd lo l fuel).2 <> Ok tt -> file_after dflt path before (link wd lo l fuel).1 = Some (c, m) ->
  m = match before with Some x => x.2 | None => dflt end.
Proof.
  intros wd lo l fuel dflt path before c m Hn. unfold link in *. destruct (wd_can_create wd).
  - destruct (link_bytes wd lo l fuel) as [d|e|p]; cbn [fst snd] in *; [done|..]; unfold file_after; cbn [foldl file_step]; (case_decide; [intros [= _ <-]; reflexivity|intros ->; reflexivity]).
  - cbn [fst snd file_after foldl]. intros ->. reflexivity.
Qed.
Print Assumptions C80_failed.

(** The example of Demo.v: all the names of sections are read from the file. *)
Definition demo_names (secs : list section) (data : bytes) : list (option bytes) := (fun i => section_name_in data (N.of_nat i)) <$> seq 0 (length secs).
Definition main_names : list string := [""; ".dynsym"; ".rela.dyn"; ".rela.plt"; ".hash"; ".gnu.hash"; ".dynstr"; ".interp"; ".copyrel"; ".got"; ".got.plt"; ".dynamic"; ".data"; ".bss"; ".text"; ".plt"; ".symtab"; ".shstrtab"; ".strtab"].
Example C80_case : exists w secs data, main_links w secs /\ (forall s, s ∈ secs -> ¬ lone_write s) /\ stt_total_len (w_shstrtab w) < 2^32 /\ headers_fit w secs /\ blen secs <= 0xff00 /\
  (link (demo_world demo_files []) demo_lib_oracle (demo_linker ["a.o"] ["/l/libfoo.so"]) 10).2 = Ok tt /\
  file_after 0x1a4 "./out" None (link (demo_world demo_files []) demo_lib_oracle (demo_linker ["a.o"] ["/l/libfoo.so"]) 10).1 = Some (data, 0x1ed) /\
  demo_names secs data = (fun n => Some (string_bytes n)) <$> main_names.
Proof.
  destruct (main_check (fun w secs => usual w secs && bool_decide (headers_fit w secs) && (blen secs <=? 0xff00) && match write_to_disk demo_oracle w with
      | Ok data => bool_decide (demo_names secs data = (fun n => Some (string_bytes n)) <$> main_names) | _ => false end))
    as (w & secs & H & E); [vm_compute; reflexivity|].
  rewrite !andb_true_iff in E. destruct E as [[[E1 E2] E4] E3]. apply usual_spec in E1 as (U1 & U2 & _). apply bool_decide_eq_true_1 in E2. apply N.leb_le in E4.
  destruct (write_to_disk demo_oracle w) as [data| |] eqn:Ed; [|discriminate E3|discriminate E3]. apply bool_decide_eq_true_1 in E3.
  assert (HL : link (demo_world demo_files []) demo_lib_oracle (demo_linker ["a.o"] ["/l/libfoo.so"]) 10 = ([ECreate "./out"; EWrite "./out" data; EChmod "./out" 493], Ok tt)).
  { unfold link, link_bytes. rewrite (proj1 H). cbn [mbind res_bind]. change (lo_writer demo_lib_oracle) with demo_oracle. rewrite Ed. reflexivity. }
  exists w, secs, data. split; [exact H|]. split; [exact U1|]. split; [exact U2|]. split; [exact E2|]. split; [exact E4|]. rewrite HL. split; [reflexivity|]. split; [|exact E3].
  unfold file_after. cbn [fst foldl file_step]. rewrite !decide_True by reflexivity. reflexivity.
Qed.
