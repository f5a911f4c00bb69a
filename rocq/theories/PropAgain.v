(** C109: naming a library again changes nothing. *)
From Verif Require Import ProofAgain PropUnused PropTotal PropResolve PropScan DemoLink.

(** The second mention may stand anywhere after the first, as-needed or not. No
    condition on the inputs, the libraries or the outcome. *)
Theorem C109 : forall wd lo l fuel pre x mid y post, opt_shared_libs (lk_options l) = pre ++ x :: mid ++ post -> y.1 = x.1 ->
  link wd lo (with_libs l (pre ++ x :: mid ++ y :: post)) fuel = link wd lo l fuel.
Proof. intros wd lo l fuel pre x mid y post Hl E. apply again_link. intros st. rewrite Hl. exact (again_same _ _ _ _ _ _ _ E). Qed.
Print Assumptions C109.

(** The first mentions of a list, in order. *)
Fixpoint firsts (seen : list string) (libs : list (string * bool)) : list (string * bool) :=
  match libs with
  | [] => []
  | x :: k => if decide (x.1 ∈ seen) then firsts seen k else x :: firsts (x.1 :: seen) k
  end.
Lemma firsts_fold wd k pre seen st : (forall p, p ∈ seen -> p ∈ pre.*1) -> foldM (search_lib wd) (pre ++ k) st = foldM (search_lib wd) (pre ++ firsts seen k) st.
Proof.
  revert pre seen. induction k as [|x k IH]; intros pre seen H; cbn [firsts]; [reflexivity|]. destruct (decide (x.1 ∈ seen)) as [Hx|Hx].
  - rewrite <- (IH pre seen H). pose proof (H _ Hx) as Hp. apply elem_of_list_fmap in Hp as (x' & E & Hp). apply elem_of_list_split in Hp as (a & b & ->). rewrite <- !app_assoc. cbn [app]. exact (again_same _ _ _ _ _ _ _ E).
  - change (pre ++ x :: k) with (pre ++ [x] ++ k). change (pre ++ x :: firsts (x.1 :: seen) k) with (pre ++ [x] ++ firsts (x.1 :: seen) k). rewrite !app_assoc. apply IH. intros p Hp. rewrite fmap_app. apply elem_of_app. apply elem_of_cons in Hp as [->|Hp]; [right; left|left; exact (H _ Hp)].
Qed.
(** So only the first mentions count. *)
Theorem C109_firsts : forall wd lo l fuel, link wd lo (with_libs l (firsts [] (opt_shared_libs (lk_options l)))) fuel = link wd lo l fuel.
Proof. intros wd lo l fuel. apply again_link. intros st. symmetry. apply (firsts_fold wd _ [] []). intros p Hp. by apply elem_of_nil in Hp. Qed.
Print Assumptions C109_firsts.

(** ** The libraries of a program, one of them twice *)
Definition again_l : linker := demo_linker ["a.o"] ["/l/libf.so"; "/l/libx.so"].
Example C109_case : opt_shared_libs (lk_options again_l) = [] ++ ("/l/libf.so", false) :: [("/l/libx.so", false)] ++ [] /\ ("/l/libf.so", true).1 = ("/l/libf.so", false).1 /\
  (link una_wd demo_lib_oracle again_l 10).2 = Ok tt.
Proof. split; [reflexivity|]. split; [reflexivity|]. vm_compute. reflexivity. Qed.
Example C109_firsts_case : firsts [] [("/l/libf.so", false); ("/l/libx.so", false); ("/l/libf.so", true); ("/l/libc.so", false)] = [("/l/libf.so", false); ("/l/libx.so", false); ("/l/libc.so", false)].
Proof. vm_compute. reflexivity. Qed.
(** The order of the first mentions does count: of two libraries with the name,
    the first is recorded. *)
Theorem C109_order_refuted : exists wd lo l a b, valid_orders lo /\ opt_shared_libs (lk_options l) = [a; b] /\ (link wd lo l 10).2 = Ok tt /\ link wd lo (with_libs l [b; a]) 10 <> link wd lo l 10.
Proof.
  exists (demo_world (una_files ++ [("/l/libother.so", demo_lib [("f", dsym 0x12 7 0x1000 6)])]) []), demo_lib_oracle, (demo_linker ["a.o"] ["/l/libf.so"; "/l/libother.so"]), ("/l/libf.so", false), ("/l/libother.so", false).
  split; [exact demo_orders|]. split; [reflexivity|]. split; [vm_compute; reflexivity|]. intros H. vm_compute in H. discriminate H.
Qed.
Print Assumptions C109_order_refuted.
