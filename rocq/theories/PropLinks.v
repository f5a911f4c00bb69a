(** Links between the tables of the output (C55). *)
From Verif Require Import ProofBase DemoLink PropLayout PropFile PropGot PropMerge SpecLinks ProofLinks.

(** * C55 *)

(** In the output of a link, whatever the order of the sections, the [sh_link]
    of a table is the index of the one section with the name of the table it
    refers to. *)
Theorem C55_links : forall wd lo l fuel w secs a b s, good_link wd lo l fuel w secs -> N.of_nat (length secs) <= 2^32 ->
  (a, b) ∈ link_targets -> s ∈ secs -> sec_name w s = Some a ->
  exists t, secs !! N.to_nat (sh_link (sc_sh s)) = Some t /\ the_sec w secs b t.
Proof. intros wd lo l fuel w secs a b s G Hf Hab Hs Hn. exact (good_link_field G a b s Hab Hs Hn Hf). Qed.
Print Assumptions C55_links.

(** All but the hash tables (of which the options choose one) are always there. *)
Theorem C55_tables : forall wd lo l fuel w secs a b, good_link wd lo l fuel w secs ->
  (a, b) ∈ link_targets -> a ∈ [".symtab"; ".dynsym"; ".dynamic"; ".rela.dyn"; ".rela.plt"] -> exists s, the_sec w secs a s.
Proof. intros wd lo l fuel w secs a b G. exact (good_tables G a b). Qed.
Print Assumptions C55_tables.

(** The links of the demo: number, name and link of its tables. *)
Definition link_row (w : writer) (ix : nat * section) : option (string * N) :=
  match sec_name w ix.2 with
  | Some n => if bool_decide (n ∈ link_targets.*1) then Some (n, sh_link (sc_sh ix.2)) else None
  | None => None
  end.
Example C55_case : exists w secs, twin_good w secs /\ N.of_nat (length secs) <= 2^32 /\
  omap (link_row w) (imap pair secs) = [(".dynsym", 6); (".rela.dyn", 1); (".rela.plt", 1); (".hash", 1); (".gnu.hash", 1); (".dynamic", 6); (".symtab", 18)] /\
  sec_name w <$> secs !! 1%nat = Some (Some ".dynsym") /\ sec_name w <$> secs !! 6%nat = Some (Some ".dynstr") /\ sec_name w <$> secs !! 18%nat = Some (Some ".strtab").
Proof.
  destruct (twin_check (fun w secs => bool_decide (N.of_nat (length secs) <= 2^32) &&
    bool_decide (omap (link_row w) (imap pair secs) = [(".dynsym", 6); (".rela.dyn", 1); (".rela.plt", 1); (".hash", 1); (".gnu.hash", 1); (".dynamic", 6); (".symtab", 18)] /\
    sec_name w <$> secs !! 1%nat = Some (Some ".dynsym") /\ sec_name w <$> secs !! 6%nat = Some (Some ".dynstr") /\ sec_name w <$> secs !! 18%nat = Some (Some ".strtab")))) as (w & secs & evs & G & L & E); [vm_compute; reflexivity|].
  apply andb_true_iff in E as [E1 E2]. apply bool_decide_eq_true_1 in E1, E2. exists w, secs. split; [exact G|]. split; [exact E1|exact E2].
Qed.
