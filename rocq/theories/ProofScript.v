From Verif Require Export ProofBase SpecScript ModelScript.

(** * Parsers *)
Definition stops (f : ascii -> bool) (i : chars) : Prop := match i with c :: _ => f c = false | [] => True end.

Lemma many_fuel_ext {A} (p q : parser A) : (forall i, p i = q i) -> forall n i, p_many_fuel n p i = p_many_fuel n q i.
Proof. intros H n. induction n as [|n IH]; intros i; simpl; rewrite H; [done|]. destruct (q i) as [c a i'|c|]; try done. by rewrite IH. Qed.
Lemma many_sat f s : Forall (fun c => f c = true) s -> forall n rest, stops f rest -> (length s <= n)%nat ->
  p_many_fuel n (p_satisfy f) (s ++ rest) = POk (negb (bool_decide (s = []))) s rest.
Proof.
  intros H n. revert s H. induction n as [|n IH]; intros [|c s] H rest Hr Hn; simpl in *; try lia.
  - destruct rest as [|d rest]; simpl in *; [done|]. by rewrite Hr.
  - destruct rest as [|d rest]; simpl in *; [done|]. by rewrite Hr.
  - apply Forall_cons in H as [Hc H]. rewrite Hc. simpl. rewrite IH; [|done|done|lia]. done.
Qed.
Lemma space_spec c : is_whitespace c = true <-> space_char c.
Proof.
  unfold is_whitespace, space_char. rewrite !elem_of_cons, elem_of_nil, orb_true_iff, andb_true_iff, !N.leb_le, N.eqb_eq. lia.
Qed.
Definition ascii_eq_N a b : N_of_ascii a = N_of_ascii b -> a = b.
Proof. intros H. by rewrite <- (ascii_N_embedding a), <- (ascii_N_embedding b), H. Qed.
Lemma arg_char_spec c : is_arg_char c = true <-> name_char c.
Proof.
  unfold is_arg_char, is_alnum, name_char. rewrite !elem_of_cons, elem_of_nil, !orb_true_iff, !andb_true_iff, !N.leb_le, !Ascii.eqb_eq.
  split.
  - intros [[[[H|H]|H]|H]|H]; try (by subst c; vm_compute; tauto). lia.
  - intros [H|[H|[H|[H|[H|[H|[H|[]]]]]]]]; try tauto; apply (ascii_eq_N _ (ascii_of_N _)) in H || idtac.
    1: left; left; left; right. 2: left; left; right. 3: left; right. 4: right. all: apply ascii_eq_N; by rewrite H.
Qed.
Lemma spaces_ws w : spaces w -> Forall (fun c => is_whitespace c = true) w.
Proof. intros H. eapply Forall_impl; [exact H|]. intros c. apply space_spec. Qed.

Lemma skip_spaces w rest : spaces w -> stops is_whitespace rest ->
  exists c, p_skip_many p_space (w ++ rest) = POk c tt rest.
Proof.
  intros Hw Hr. unfold p_skip_many, p_map, p_bind, p_many, p_space. rewrite many_sat; [|by apply spaces_ws|done|rewrite app_length; lia].
  eexists. reflexivity.
Qed.
Lemma arg_parser i : p_or (p_satisfy is_alnum) (p_or (p_char "-") (p_or (p_char ".") (p_or (p_char "_") (p_char "/")))) i = p_satisfy is_arg_char i.
Proof.
  destruct i as [|c i]; [done|]. unfold p_or, p_char, p_satisfy, is_arg_char.
  rewrite (Ascii.eqb_sym c "-"), (Ascii.eqb_sym c "."), (Ascii.eqb_sym c "_"), (Ascii.eqb_sym c "/").
  destruct (is_alnum c); [done|]. repeat (match goal with |- context [Ascii.eqb ?a ?b] => destruct (Ascii.eqb a b); [done|] end). done.
Qed.
Lemma parse_arg_alt i : parse_arg i = p_many1 (p_satisfy is_arg_char) i.
Proof.
  unfold parse_arg, p_many1, p_map, p_bind. rewrite arg_parser. destruct (p_satisfy is_arg_char i) as [c a i'|c|]; [|done|done].
  unfold p_many. by rewrite (many_fuel_ext _ _ arg_parser).
Qed.
Lemma parse_word a rest : word a -> stops is_arg_char rest -> parse_arg (a ++ rest) = POk true a rest.
Proof.
  intros [Hne Ha] Hr. rewrite parse_arg_alt. destruct a as [|c a]; [done|]. apply Forall_cons in Ha as [Hc Ha]. apply arg_char_spec in Hc.
  unfold p_many1, p_bind, p_map. simpl. rewrite Hc. unfold p_many, p_bind. rewrite many_sat; [done| |done|rewrite app_length; lia].
  eapply Forall_impl; [exact Ha|]. intros d. apply arg_char_spec.
Qed.
Lemma parse_arg_fails i : stops is_arg_char i -> parse_arg i = PErr false.
Proof. intros H. rewrite parse_arg_alt. unfold p_many1, p_bind. destruct i as [|c i]; [done|]. simpl in *. by rewrite H. Qed.
Lemma tokens_ok s rest : forall b, p_tokens b s (s ++ rest) = POk (b || negb (bool_decide (s = []))) tt rest.
Proof.
  induction s as [|c s IH]; intros b; simpl; [by rewrite orb_false_r|]. rewrite Ascii.eqb_refl, IH. by rewrite !orb_true_r.
Qed.
Lemma string_ok s rest : s <> [] -> p_string s (s ++ rest) = POk true tt rest.
Proof. intros H. unfold p_string. rewrite tokens_ok. by rewrite bool_decide_eq_false_2. Qed.

(** * Lists separated by spaces *)
Section sep.
  Context {X A : Type} (p : parser A) (show : X -> chars) (val : X -> A) (glue : X -> chars -> Prop).
  Context (Hp : forall x t, glue x t -> p (show x ++ t) = POk true (val x) t).
  Context (Hne : forall x, show x <> []).
  Context (Hstart : forall x t, stops is_whitespace (show x ++ t)).
  Context (Hend : forall t, p (")"%char :: t) = PErr false).

  Definition items_text (l : list (X * text)) : chars := concat ((fun x => show x.1 ++ x.2) <$> l).
  Fixpoint items_ok (l : list (X * text)) (t : chars) : Prop :=
    match l with
    | [] => True
    | (x, w) :: l' => spaces w /\ glue x (w ++ items_text l' ++ t) /\ items_ok l' t
    end.
  Lemma items_cons x w l t : items_text ((x, w) :: l) ++ t = show x ++ w ++ items_text l ++ t.
  Proof. unfold items_text. rewrite fmap_cons. cbn [fst snd concat]. by rewrite <- !app_assoc. Qed.
  Lemma items_stop l t : stops is_whitespace (items_text l ++ ")"%char :: t).
  Proof. destruct l as [|[x w] l]; [done|]. rewrite items_cons. apply Hstart. Qed.

  Lemma sep_rest l : forall n w t, items_ok l (")"%char :: t) -> spaces w -> (length l <= n)%nat ->
    exists c, p_sep_rest n p (p_skip_many p_space) (w ++ items_text l ++ ")"%char :: t) = POk c (val <$> l.*1) (")"%char :: t).
  Proof.
    induction l as [|[x w'] l IH]; intros n w t Hl Hw Hn.
    - destruct (skip_spaces w (")"%char :: t) Hw eq_refl) as [c Hc]. destruct n as [|n]; cbn [p_sep_rest]; unfold p_bind; change (items_text [] ++ ")"%char :: t) with (")"%char :: t); rewrite Hc; unfold p_optional; rewrite Hend; eexists; reflexivity.
    - destruct Hl as (Hw' & Hg & Hl). destruct n as [|n]; [simpl in Hn; lia|].
      destruct (skip_spaces w (items_text ((x, w') :: l) ++ ")"%char :: t) Hw (items_stop _ _)) as [c Hc].
      cbn [p_sep_rest]. unfold p_bind. rewrite Hc. unfold p_optional. rewrite items_cons, (Hp x _ Hg).
      destruct (IH n w' t Hl Hw') as [c' Hc']; [simpl in Hn; lia|]. rewrite Hc'. eexists. reflexivity.
  Qed.
  Lemma items_length l : (length l <= length (items_text l))%nat.
  Proof.
    induction l as [|[x w] l IH]; [done|]. unfold items_text in *. rewrite fmap_cons. cbn [fst snd concat length]. rewrite !app_length.
    pose proof (Hne x). destruct (show x); [done|]. simpl. lia.
  Qed.
  Lemma sep_end_by_ok l t : items_ok l (")"%char :: t) ->
    exists c, p_sep_end_by p (p_skip_many p_space) (items_text l ++ ")"%char :: t) = POk c (val <$> l.*1) (")"%char :: t).
  Proof.
    intros Hl. destruct l as [|[x w] l].
    - change (items_text [] ++ ")"%char :: t) with (")"%char :: t). unfold p_sep_end_by. rewrite Hend. eexists. reflexivity.
    - destruct Hl as (Hw & Hg & Hl). unfold p_sep_end_by. rewrite items_cons, (Hp x _ Hg).
      edestruct (sep_rest l (length (w ++ items_text l ++ ")"%char :: t)) w t Hl Hw) as [c Hc].
      { pose proof (items_length l). rewrite !app_length. lia. }
      rewrite Hc. eexists. reflexivity.
  Qed.
End sep.

Lemma word_stops a t : word a -> stops is_whitespace (a ++ t).
Proof.
  intros [H Ha]. destruct a as [|c a]; [done|]. apply Forall_cons in Ha as [Hc _]. simpl. apply not_true_iff_false. rewrite space_spec.
  unfold space_char, name_char in *. rewrite !elem_of_cons, elem_of_nil in *. lia.
Qed.
Lemma space_not_arg c : space_char c -> is_arg_char c = false.
Proof. intros H. apply not_true_iff_false. rewrite arg_char_spec. unfold space_char, name_char in *. rewrite !elem_of_cons, elem_of_nil in *. lia. Qed.
Lemma spaces_stop_arg w t : spaces w -> (w = [] -> stops is_arg_char t) -> stops is_arg_char (w ++ t).
Proof. intros Hw Ht. destruct w as [|c w]; [by apply Ht|]. apply Forall_cons in Hw as [Hc _]. by apply space_not_arg. Qed.

(** * Commands *)
Lemma between_ok {A} (p : parser A) i v t c : p i = POk c v (")"%char :: t) ->
  exists c', p_between (p_char "(") (p_char ")") p ("("%char :: i) = POk c' v t.
Proof. intros H. unfold p_between, p_bind, p_map. simpl. unfold p_bind. rewrite H. simpl. eexists. reflexivity. Qed.

Definition shown (X : Type) := X.
(** Words in parentheses *)
Lemma words_parse l t : word_list l -> exists c, p_sep_end_by parse_arg (p_skip_many p_space) (words_text l ++ ")"%char :: t) = POk c (l.*1) (")"%char :: t).
Proof.
  intros Hl.
  (* carry the proof that each is a word *)
  assert (Hall : forall l, word_list l -> Forall (fun x => word x.1) l).
  { clear. induction l as [|[a w] l IH]; [constructor|]. intros (H1 & _ & _ & H2). constructor; [done|by apply IH]. }
  set (show := fun x : { a : text | word a } => `x).
  assert (exists k : list ({ a : text | word a } * text), (fun x => (show x.1, x.2)) <$> k = l) as [k Hk].
  { clear -Hl. induction l as [|[a w] l IH]; [by exists []|]. destruct Hl as (H1 & _ & _ & H2). destruct (IH H2) as [k Hk].
    exists ((exist _ a H1, w) :: k). rewrite fmap_cons, Hk. done. }
  assert (Ht : items_text show k = words_text l).
  { unfold items_text, words_text. subst l. by rewrite <- list_fmap_compose. }
  destruct (sep_end_by_ok parse_arg show show (fun _ t => stops is_arg_char t)) with (l := k) (t := t) as [c Hc].
  - intros [a Ha] u Hu. simpl. by apply parse_word.
  - intros [a [Ha ?]]. done.
  - intros [a Ha] u. by apply word_stops.
  - intros u. by apply parse_arg_fails.
  - clear Hall Ht. subst l. revert Hl. induction k as [|[x w] k IH]; [done|]. rewrite fmap_cons. intros (H1 & H2 & H3 & H4). split; [done|].
    split; [|by apply IH]. apply spaces_stop_arg; [done|]. intros ->. destruct k as [|y k]; [done|]. exfalso. by apply H3.
  - exists c. rewrite <- Ht, Hc. subst l. rewrite <- !list_fmap_compose. done.
Qed.
Lemma as_needed_parse before inside names t : spaces before -> spaces inside -> word_list names ->
  exists c, parse_as_needed_command (member_text (AsNeeded before inside names) ++ t) = POk c (member_args (AsNeeded before inside names)) t.
Proof.
  intros H1 H2 H3. unfold parse_as_needed_command, member_text. rewrite <- !app_assoc. unfold p_bind at 1. rewrite string_ok by done.
  unfold p_bind at 1. destruct (skip_spaces before (txt "(" ++ inside ++ words_text names ++ txt ")" ++ t) H1 eq_refl) as [c1 Hc1]. rewrite Hc1.
  unfold p_map at 1. unfold p_bind at 1.
  assert (Hs : stops is_whitespace (words_text names ++ txt ")" ++ t)).
  { destruct names as [|[a w] names]; [done|]. destruct H3 as (Ha & _). unfold words_text. rewrite fmap_cons. cbn [fst snd concat]. rewrite <- !app_assoc. by apply word_stops. }
  destruct (skip_spaces inside _ H2 Hs) as [c2 Hc2]. destruct (words_parse names t H3) as [c3 Hc3].
  edestruct (between_ok (p_bind (p_skip_many p_space) (fun _ => p_sep_end_by parse_arg (p_skip_many p_space)))
    (inside ++ words_text names ++ txt ")" ++ t)) as [c4 Hc4].
  { unfold p_bind at 1. rewrite Hc2. change (txt ")" ++ t) with (")"%char :: t). rewrite Hc3. reflexivity. }
  change (txt "(" ++ inside ++ words_text names ++ txt ")" ++ t) with ("("%char :: (inside ++ words_text names ++ txt ")" ++ t)). rewrite Hc4. simpl. eexists. reflexivity.
Qed.
Lemma tokens_committed s : forall b i c u r, p_tokens b s i = POk c u r -> c = b || negb (bool_decide (s = [])).
Proof.
  induction s as [|x s IH]; intros b i c u r E; simpl in E; [injection E as <- _ _; by rewrite orb_false_r|].
  destruct i as [|y i]; [done|]. destruct (Ascii.eqb x y); [|done]. rewrite (IH _ _ _ _ _ E). by rewrite !orb_true_r.
Qed.
Lemma string_committed s i c u r : s <> [] -> p_string s i = POk c u r -> c = true.
Proof. intros H E. apply tokens_committed in E. rewrite bool_decide_eq_false_2 in E; done. Qed.
Lemma bind_committed {A B} (p : parser A) (f : A -> parser B) i c b r : (forall c a r, p i = POk c a r -> c = true) -> p_bind p f i = POk c b r -> c = true.
Proof.
  intros H. unfold p_bind. destruct (p i) as [c1 a r1|c1|]; [|done|done]. rewrite (H _ _ _ eq_refl). intros E.
  destruct (f a r1); [|done|done]. injection E as <- _ _. done.
Qed.
Lemma as_needed_committed i c a r : parse_as_needed_command i = POk c a r -> c = true.
Proof. apply bind_committed. intros c' u r'. by apply string_committed. Qed.
Definition group_member : parser (list chars) := p_or parse_as_needed_command (p_map (fun v => [v]) parse_arg).
Lemma member_parse m t : member_ok m -> easy_member m -> (match m with Name _ => stops is_arg_char t | _ => True end) ->
  group_member (member_text m ++ t) = POk true (member_args m) t.
Proof.
  intros Hok He Ht. unfold group_member, p_or. destruct m as [a|before inside names].
  - assert (E : parse_as_needed_command (member_text (Name a) ++ t) = PErr false).
    { destruct Hok as [Hne _]. destruct a as [|c a]; [done|]. unfold parse_as_needed_command, p_bind, p_string. cbn [member_text app]. simpl. simpl in He.
      destruct c as [[] [] [] [] [] [] [] []]; try done. }
    rewrite E. unfold p_map, p_bind. cbn [member_text]. rewrite parse_word by done. done.
  - destruct Hok as (H1 & H2 & H3). destruct (as_needed_parse before inside names t H1 H2 H3) as [c Hc]. rewrite Hc.
    by rewrite (as_needed_committed _ _ _ _ Hc).
Qed.
Lemma member_stops m t : member_ok m -> stops is_whitespace (member_text m ++ t).
Proof. destruct m as [a|before inside names]; [apply word_stops|done]. Qed.
Lemma members_parse l t : members l -> (forall m w, (m, w) ∈ l -> easy_member m) ->
  exists c, p_sep_end_by group_member (p_skip_many p_space) (members_text l ++ ")"%char :: t) = POk c ((fun x => member_args x.1) <$> l) (")"%char :: t).
Proof.
  intros Hl He.
  set (show := fun x : { m : member | member_ok m /\ easy_member m } => member_text (`x)).
  assert (exists k : list ({ m : member | member_ok m /\ easy_member m } * text), (fun x => (`x.1, x.2)) <$> k = l) as [k Hk].
  { clear -Hl He. induction l as [|[m w] l IH]; [by exists []|]. destruct Hl as (H1 & _ & _ & H2). destruct IH as [k Hk]; [done| |].
    { intros m' w' H. apply (He m' w'). by right. }
    exists ((exist _ m (conj H1 (He m w ltac:(by left))), w) :: k). rewrite fmap_cons, Hk. done. }
  assert (Ht : items_text show k = members_text l).
  { unfold items_text, members_text. subst l. by rewrite <- list_fmap_compose. }
  destruct (sep_end_by_ok group_member show (fun x => member_args (`x)) (fun x t => match `x with Name _ => stops is_arg_char t | _ => True end)) with (l := k) (t := t) as [c Hc].
  - intros [m [H1 H2]] u Hu. by apply member_parse.
  - intros [[a|] [H1 H2]]; [by destruct H1|]. done.
  - intros [m [H1 H2]] u. by apply member_stops.
  - intros u. done.
  - clear He Ht. subst l. revert Hl. induction k as [|[[m [Hm1 Hm2]] w] k IH]; [done|]. rewrite fmap_cons. intros (H1 & H2 & H3 & H4). split; [done|].
    split; [|by apply IH]. simpl in *. destruct m as [a|]; [|done]. apply spaces_stop_arg; [done|]. intros ->. destruct k as [|y k]; [done|]. exfalso. by apply H3.
  - exists c. rewrite <- Ht, Hc. subst l. rewrite <- !list_fmap_compose. done.
Qed.
Lemma members_stop l t : members l -> stops is_whitespace (members_text l ++ ")"%char :: t).
Proof.
  destruct l as [|[m w] l]; [done|]. intros (H1 & _). unfold members_text. rewrite fmap_cons. cbn [fst snd concat]. rewrite <- !app_assoc. by apply member_stops.
Qed.
Lemma group_parse before inside l t : command_ok (Group before inside l) -> easy (Group before inside l) ->
  exists c, parse_group_command (command_text (Group before inside l) ++ t) = POk c (command_args (Group before inside l)) t.
Proof.
  intros (H1 & H2 & H3) He. unfold parse_group_command, command_text. rewrite <- !app_assoc. unfold p_bind at 1. rewrite string_ok by done.
  unfold p_bind at 1. destruct (skip_spaces before (txt "(" ++ inside ++ members_text l ++ txt ")" ++ t) H1 eq_refl) as [c1 Hc1]. rewrite Hc1.
  unfold p_map at 1. unfold p_bind at 1.
  destruct (skip_spaces inside _ H2 (members_stop l t H3)) as [c2 Hc2]. destruct (members_parse l t H3 He) as [c3 Hc3].
  edestruct (between_ok (p_bind (p_skip_many p_space) (fun _ => p_sep_end_by group_member (p_skip_many p_space)))
    (inside ++ members_text l ++ ")"%char :: t)) as [c4 Hc4].
  { unfold p_bind at 1. rewrite Hc2. rewrite Hc3. reflexivity. }
  change (txt "(" ++ inside ++ members_text l ++ txt ")" ++ t) with ("("%char :: (inside ++ members_text l ++ ")"%char :: t)). fold group_member. rewrite Hc4. simpl. eexists. reflexivity.
Qed.
Lemma format_parse before inside name after t : command_ok (OutputFormat before inside name after) ->
  exists c, parse_output_format_command (command_text (OutputFormat before inside name after) ++ t) = POk c [] t.
Proof.
  intros (H1 & H2 & H3 & H4). unfold parse_output_format_command, command_text. rewrite <- !app_assoc. unfold p_bind at 1. rewrite string_ok by done.
  unfold p_bind at 1. destruct (skip_spaces before (txt "(" ++ inside ++ name ++ after ++ txt ")" ++ t) H1 eq_refl) as [c1 Hc1]. rewrite Hc1.
  unfold p_map at 1. unfold p_bind at 1.
  destruct (skip_spaces inside (name ++ after ++ ")"%char :: t) H2) as [c2 Hc2]; [by apply word_stops|].
  destruct (skip_spaces after (")"%char :: t) H4 eq_refl) as [c3 Hc3].
  edestruct (between_ok (p_bind (p_skip_many p_space) (fun _ => p_bind parse_arg (fun _ => p_skip_many p_space)))
    (inside ++ name ++ after ++ ")"%char :: t)) as [c4 Hc4].
  { unfold p_bind at 1. rewrite Hc2. unfold p_bind at 1. rewrite parse_word; [|done|by apply spaces_stop_arg]. rewrite Hc3. reflexivity. }
  change (txt "(" ++ inside ++ name ++ after ++ txt ")" ++ t) with ("("%char :: (inside ++ name ++ after ++ ")"%char :: t)). rewrite Hc4. simpl. eexists. reflexivity.
Qed.

(** * Comments and blanks *)
Lemma skip_until_ok body t : "*"%char ∉ body -> exists c, p_skip_until (p_string (chr "*/")) (body ++ txt "*/" ++ t) = POk c tt (txt "*/" ++ t).
Proof.
  induction body as [|c body IH]; intros H; [eexists; reflexivity|]. apply not_elem_of_cons in H as [Hc H]. destruct (IH H) as [c' Hc'].
  cbn [p_skip_until app]. assert (E : p_string (chr "*/") (c :: body ++ txt "*/" ++ t) = PErr false).
  { unfold p_string. cbn [chr list_ascii_of_string p_tokens]. destruct (Ascii.eqb_spec "*" c); [done|]. done. }
  rewrite E, Hc'. eexists. reflexivity.
Qed.
Lemma comment_parse body t : "*"%char ∉ body -> exists c, parse_comment (command_text (Comment body) ++ t) = POk c tt t.
Proof.
  intros H. unfold parse_comment, p_between, command_text. rewrite <- !app_assoc. unfold p_bind at 1. rewrite string_ok by done.
  unfold p_bind at 1. destruct (skip_until_ok body t H) as [c Hc]. rewrite Hc. unfold p_map, p_bind. rewrite string_ok by done. eexists. reflexivity.
Qed.
Definition blank_item : parser unit := p_or (p_skip_many1 p_space) (p_or parse_comment (p_map (fun _ => tt) (p_char "010"))).
Definition is_blank (c : command) : Prop := match c with Blank _ | Comment _ => True | _ => False end.
Global Instance is_blank_dec c : Decision (is_blank c).
Proof. destruct c; apply _. Defined.
(** Where the next command starts, or the end. *)
Definition at_command (i : chars) : Prop := i = [] \/ exists c i', i = c :: i' /\ (c = "G"%char \/ c = "O"%char).

Lemma space_run w t c : spaces (c :: w) -> stops is_whitespace t -> exists b, blank_item (c :: w ++ t) = POk b tt t.
Proof.
  intros Hw Ht. apply Forall_cons in Hw as [Hc Hw]. apply space_spec in Hc. unfold blank_item, p_or, p_skip_many1, p_many1, p_map, p_bind, p_space.
  cbn [p_satisfy]. rewrite Hc. unfold p_many. rewrite many_sat; [|by apply spaces_ws|done|rewrite app_length; lia]. eexists. reflexivity.
Qed.
Lemma comment_item body t : "*"%char ∉ body -> exists b, blank_item (command_text (Comment body) ++ t) = POk b tt t.
Proof.
  intros H. destruct (comment_parse body t H) as [b Hb]. unfold blank_item, p_or.
  assert (E : p_skip_many1 p_space (command_text (Comment body) ++ t) = PErr false) by done. rewrite E, Hb. eexists. reflexivity.
Qed.
Lemma at_command_end i : at_command i -> blank_item i = PErr false.
Proof. intros [->|(c & i' & -> & [->| ->])]; done. Qed.
Lemma at_command_stops i : at_command i -> stops is_whitespace i.
Proof. intros [->|(c & i' & -> & [->| ->])]; done. Qed.

Lemma blank_run : forall n l t m, (length l <= n)%nat -> Forall command_ok l -> Forall easy l -> Forall is_blank l -> at_command t ->
  (length l <= m)%nat -> exists b k, p_many_fuel m blank_item (script_text l ++ t) = POk b k t.
Proof.
  induction n as [|n IH]; intros l t m Hn Hok He Hb Ht Hm.
  { destruct l; [|simpl in Hn; lia]. change (script_text [] ++ t) with t. exists false, []. destruct m; cbn [p_many_fuel]; by rewrite at_command_end. }
  destruct l as [|x l]; [exists false, []; change (script_text [] ++ t) with t; destruct m; cbn [p_many_fuel]; by rewrite at_command_end|].
  apply Forall_cons in Hok as [Hx Hok]. apply Forall_cons in He as [Hex He]. apply Forall_cons in Hb as [Hbx Hb].
  destruct m as [|m]; [simpl in Hm; lia|]. destruct x as [c|body| |]; try done.
  - (* a run of blanks *)
    assert (exists w l', script_text l ++ t = w ++ script_text l' ++ t /\ spaces w /\ (length l' <= length l)%nat /\ stops is_whitespace (script_text l' ++ t) /\
      Forall command_ok l' /\ Forall easy l' /\ Forall is_blank l') as (w & l' & E & Hw & Hl & Hs & H1 & H2 & H3).
    { clear IH Hn Hm. induction l as [|y l IHl].
      - exists [], []. split; [done|]. split; [constructor|]. split; [lia|]. split; [by apply at_command_stops|]. done.
      - apply Forall_cons in Hok as [Hy Hok']. apply Forall_cons in He as [Hey He']. apply Forall_cons in Hb as [Hby Hb'].
        destruct y as [d|body| |]; try done.
        + destruct (IHl Hok' He' Hb') as (w & l' & E & Hw & Hl & Hrest). exists (d :: w), l'. split; [|split; [by constructor|split; [simpl; lia|done]]].
          change (script_text (Blank d :: l) ++ t) with (d :: (script_text l ++ t)). rewrite E. done.
        + exists [], (Comment body :: l). split; [done|]. split; [constructor|]. split; [lia|]. split; [done|]. split; [by constructor|]. split; by constructor. }
    change (script_text (Blank c :: l) ++ t) with (c :: (script_text l ++ t)). rewrite E. cbn [p_many_fuel].
    destruct (space_run w (script_text l' ++ t) c) as [b Hbk]; [by constructor|done|]. rewrite Hbk.
    destruct (IH l' t m) as (b' & k & Hk); try done; [simpl in Hn; lia|simpl in Hm; lia|]. rewrite Hk. eexists _, _. reflexivity.
  - assert (Ex : script_text (Comment body :: l) ++ t = command_text (Comment body) ++ (script_text l ++ t)).
    { unfold script_text. rewrite fmap_cons. cbn [concat]. by rewrite <- app_assoc. }
    rewrite Ex. cbn [p_many_fuel]. destruct (comment_item body (script_text l ++ t) Hex) as [b Hbk]. rewrite Hbk.
    destruct (IH l t m) as (b' & k & Hk); try done; [simpl in Hn; lia|simpl in Hm; lia|]. rewrite Hk. eexists _, _. reflexivity.
Qed.
Lemma command_nonempty c : command_text c <> [].
Proof. destruct c; done. Qed.
Lemma script_nonempty l : (length l <= length (script_text l))%nat.
Proof.
  induction l as [|c l IH]; [done|]. unfold script_text in *. rewrite fmap_cons. cbn [concat length]. rewrite app_length.
  pose proof (command_nonempty c). destruct (command_text c); [done|]. simpl. lia.
Qed.
Lemma skip_blanks l t : Forall command_ok l -> Forall easy l -> Forall is_blank l -> at_command t ->
  exists b, skip_ws_and_comments (script_text l ++ t) = POk b tt t.
Proof.
  intros H1 H2 H3 H4. unfold skip_ws_and_comments. fold blank_item. unfold p_skip_many, p_map, p_bind, p_many.
  destruct (blank_run (length l) l t (length (script_text l ++ t))) as (b & k & Hk); try done.
  { rewrite app_length. pose proof (script_nonempty l). lia. }
  rewrite Hk. eexists. reflexivity.
Qed.
Lemma script_cons c l : script_text (c :: l) = command_text c ++ script_text l.
Proof. done. Qed.
Lemma script_app l k : script_text (l ++ k) = script_text l ++ script_text k.
Proof. unfold script_text. by rewrite fmap_app, concat_app. Qed.
Lemma line_end l : Forall command_ok l -> Forall easy l -> Forall is_blank l -> exists b, parse_line (script_text l) = POk b None [].
Proof.
  intros H1 H2 H3. destruct (skip_blanks l [] H1 H2 H3) as [b Hb]; [by left|]. rewrite app_nil_r in Hb. unfold parse_line, p_bind. rewrite Hb. eexists. reflexivity.
Qed.
Lemma line_command l x t : Forall command_ok l -> Forall easy l -> Forall is_blank l -> command_ok x -> easy x -> ¬ is_blank x ->
  exists b, parse_line (script_text l ++ command_text x ++ t) = POk b (Some (command_args x)) t.
Proof.
  intros H1 H2 H3 Hx He Hb. destruct (skip_blanks l (command_text x ++ t) H1 H2 H3) as [b Hk].
  { right. destruct x; try done; eexists _, _; (split; [reflexivity|tauto]). }
  unfold parse_line. unfold p_bind at 1. rewrite Hk. unfold p_optional, p_or. destruct x as [| |before inside name after|before inside k]; try done.
  - assert (E : parse_group_command (command_text (OutputFormat before inside name after) ++ t) = PErr false) by done. rewrite E.
    destruct (format_parse before inside name after t Hx) as [c Hc]. rewrite Hc. eexists. reflexivity.
  - destruct (group_parse before inside k t Hx He) as [c Hc]. rewrite Hc. eexists. reflexivity.
Qed.
Lemma split_blanks l : exists bl, Forall is_blank bl /\ (l = bl \/ exists x k, l = bl ++ x :: k /\ ¬ is_blank x).
Proof.
  induction l as [|x l IH]; [exists []; split; [constructor|by left]|]. destruct (decide (is_blank x)) as [Hx|Hx].
  - destruct IH as (bl & Hb & [->|(y & k & -> & Hy)]); exists (x :: bl); (split; [by constructor|]); [by left|right; by exists y, k].
  - exists []. split; [constructor|]. right. by exists x, l.
Qed.
Lemma blank_args l : Forall is_blank l -> script_args l = [].
Proof. induction 1 as [|x l Hx _ IH]; [done|]. unfold script_args in *. rewrite fmap_cons. cbn [concat]. rewrite IH. by destruct x. Qed.

Lemma script_parses : forall n l fuel acc, (length l <= n)%nat -> Forall command_ok l -> Forall easy l -> (length l < fuel)%nat ->
  parse_loop fuel acc (script_text l) = SArgs (acc ++ script_args l).
Proof.
  induction n as [|n IH]; intros l fuel acc Hn Hok He Hf; (destruct fuel as [|fuel]; [lia|]).
  { destruct l; [|simpl in Hn; lia]. cbn [parse_loop]. destruct (line_end []) as [b E]; [constructor..|]. rewrite E. done. }
  destruct (split_blanks l) as (bl & Hb & [->|(x & k & -> & Hx)]).
  - cbn [parse_loop]. destruct (line_end bl Hok He Hb) as [b E]. rewrite E. simpl. by rewrite (blank_args _ Hb).
  - apply Forall_app in Hok as [Ho1 Ho2]. apply Forall_cons in Ho2 as [Ho2 Ho3]. apply Forall_app in He as [He1 He2]. apply Forall_cons in He2 as [He2 He3].
    cbn [parse_loop]. rewrite script_app, script_cons. destruct (line_command bl x (script_text k) Ho1 He1 Hb Ho2 He2 Hx) as [b E]. rewrite E.
    cbn [default]. assert (Ea : script_args (bl ++ x :: k) = command_args x ++ script_args k).
    { unfold script_args. rewrite fmap_app, concat_app. pose proof (blank_args _ Hb) as Eb. unfold script_args in Eb. rewrite Eb. done. }
    rewrite Ea. rewrite app_length in Hn, Hf. simpl in Hn, Hf. destruct (script_text k) as [|c s] eqn:Es.
    + pose proof (script_nonempty k) as Hk. rewrite Es in Hk. destruct k; [|simpl in Hk; lia]. simpl. by rewrite app_nil_r.
    + rewrite <- Es. rewrite IH; [|lia|done|done|lia]. by rewrite app_assoc.
Qed.

(** * Termination of one round *)
Definition total {A} (p : parser A) : Prop := forall i, p i <> PDiv.
Definition suffix_of {A} (p : parser A) : Prop := forall i c a r, p i = POk c a r -> exists pre, i = pre ++ r /\ (c = false -> pre = []) /\ (c = true -> pre <> []).

Lemma satisfy_total f : total (p_satisfy f).
Proof. intros [|c i]; simpl; [done|]. by destruct (f c). Qed.
Lemma satisfy_suffix f : suffix_of (p_satisfy f).
Proof. intros [|c i] b a r H; simpl in H; [done|]. destruct (f c); [|done]. injection H as <- <- <-. by exists [c]. Qed.
Lemma tokens_total s : forall b i, p_tokens b s i <> PDiv.
Proof. induction s as [|x s IH]; intros b [|y i]; simpl; try done. by destruct (Ascii.eqb x y). Qed.
Lemma tokens_text s : forall b i c a r, p_tokens b s i = POk c a r -> i = s ++ r.
Proof.
  induction s as [|x s IH]; intros b [|y i] c a r H; simpl in H; try done; try (by injection H as <- _ <-).
  destruct (Ascii.eqb_spec x y) as [->|]; [|done]. simpl. f_equal. by eapply IH.
Qed.
Lemma string_total s : total (p_string s).
Proof. intros i. apply tokens_total. Qed.
Lemma string_suffix s : suffix_of (p_string s).
Proof.
  intros i c a r H. exists s. split; [by eapply tokens_text|]. apply tokens_committed in H. simpl in H. subst c. split; intros E.
  - apply negb_false_iff in E. by apply bool_decide_eq_true_1 in E.
  - apply negb_true_iff in E. by apply bool_decide_eq_false_1 in E.
Qed.
Lemma bind_total {A B} (p : parser A) (f : A -> parser B) : total p -> (forall a, total (f a)) -> total (p_bind p f).
Proof. intros Hp Hf i. unfold p_bind. destruct (p i) eqn:E; [|done|by apply Hp in E]. destruct (f a rest) eqn:E'; [done|done|by apply Hf in E']. Qed.
Lemma bind_suffix {A B} (p : parser A) (f : A -> parser B) : suffix_of p -> (forall a, suffix_of (f a)) -> suffix_of (p_bind p f).
Proof.
  intros Hp Hf i c b r. unfold p_bind. destruct (p i) as [c1 a r1| |] eqn:E; [|done|done]. destruct (f a r1) as [c2 b2 r2| |] eqn:E'; [|done|done].
  intros [= <- <- <-]. destruct (Hp _ _ _ _ E) as (p1 & -> & F1 & T1). destruct (Hf _ _ _ _ _ E') as (p2 & -> & F2 & T2).
  exists (p1 ++ p2). split; [by rewrite app_assoc|]. split.
  - intros [H1 H2]%orb_false_iff. by rewrite F1, F2.
  - intros [H1|H2]%orb_true_iff E0; apply app_eq_nil in E0 as [E1 E2]; [by apply T1|by apply T2].
Qed.
Lemma ret_total {A} (a : A) : total (p_ret a).
Proof. done. Qed.
Lemma ret_suffix {A} (a : A) : suffix_of (p_ret a).
Proof. intros i c b r [= <- <- <-]. by exists []. Qed.
Lemma map_total {A B} (f : A -> B) p : total p -> total (p_map f p).
Proof. intros H. apply bind_total; [done|]. intros a. apply ret_total. Qed.
Lemma map_suffix {A B} (f : A -> B) p : suffix_of p -> suffix_of (p_map f p).
Proof. intros H. apply bind_suffix; [done|]. intros a. apply ret_suffix. Qed.
Lemma or_total {A} (p q : parser A) : total p -> total q -> total (p_or p q).
Proof. intros Hp Hq i. unfold p_or. destruct (p i) as [| [] |] eqn:E; [done|done|apply Hq|by apply Hp in E]. Qed.
Lemma or_suffix {A} (p q : parser A) : suffix_of p -> suffix_of q -> suffix_of (p_or p q).
Proof. intros Hp Hq i c a r. unfold p_or. destruct (p i) as [| [] |] eqn:E; try done; [intros [= <- <- <-]; by eapply Hp|by apply Hq]. Qed.
Lemma optional_total {A} (p : parser A) : total p -> total (p_optional p).
Proof. intros Hp i. unfold p_optional. destruct (p i) as [| [] |] eqn:E; try done. by apply Hp in E. Qed.
Lemma optional_suffix {A} (p : parser A) : suffix_of p -> suffix_of (p_optional p).
Proof.
  intros Hp i c a r. unfold p_optional. destruct (p i) as [| [] |] eqn:E; try done; [intros [= <- <- <-]; by eapply Hp|intros [= <- <- <-]; by exists []].
Qed.
(** Items that always consume something can be repeated. *)
Definition eats {A} (p : parser A) : Prop := forall i c a r, p i = POk c a r -> c = true.
Lemma many_total {A} (p : parser A) : total p -> suffix_of p -> eats p -> total (p_many p).
Proof.
  intros Hp Hs He i. unfold p_many. assert (H : forall n i, (length i <= n)%nat -> p_many_fuel n p i <> PDiv); [|by apply H].
  clear i. induction n as [|n IH]; intros i Hi; simpl; (destruct (p i) as [c a r| [] |] eqn:E; try done; [|by apply Hp in E]);
    destruct (Hs _ _ _ _ E) as (pre & -> & _ & T); specialize (T (He _ _ _ _ E)); rewrite app_length in Hi; (destruct pre; [done|]); simpl in Hi; [lia|].
  destruct (p_many_fuel n p r) eqn:E'; [done|done|]. exfalso. apply (IH r); [lia|done].
Qed.
Lemma many_suffix {A} (p : parser A) : suffix_of p -> suffix_of (p_many p).
Proof.
  intros Hs i c l r. unfold p_many. generalize (length i). intros n. revert i c l r. induction n as [|n IH]; intros i c l r; simpl;
    (destruct (p i) as [c1 a1 r1| [] |] eqn:E; try done; try (intros [= <- <- <-]; by exists [])).
  destruct (p_many_fuel n p r1) as [c2 l2 r2| |] eqn:E'; try done. intros [= <- <- <-].
  destruct (Hs _ _ _ _ E) as (p1 & -> & F1 & T1). destruct (IH _ _ _ _ E') as (p2 & -> & F2 & T2).
  exists (p1 ++ p2). split; [by rewrite app_assoc|]. split.
  - intros [H1 H2]%orb_false_iff. by rewrite F1, F2.
  - intros [H1|H2]%orb_true_iff E0; apply app_eq_nil in E0 as [E1 E2]; [by apply T1|by apply T2].
Qed.
Lemma satisfy_eats f : eats (p_satisfy f).
Proof. intros [|c i] b a r H; simpl in H; [done|]. destruct (f c); [|done]. by injection H as <- _ _. Qed.
Lemma bind_eats {A B} (p : parser A) (f : A -> parser B) : eats p -> eats (p_bind p f).
Proof. intros H i c b r. apply bind_committed. intros c' a' r'. apply H. Qed.
Lemma or_eats {A} (p q : parser A) : eats p -> eats q -> eats (p_or p q).
Proof. intros Hp Hq i c a r. unfold p_or. destruct (p i) as [| [] |] eqn:E; try done; [intros [= <- <- <-]; by eapply Hp|by apply Hq]. Qed.
Lemma string_eats s : s <> [] -> eats (p_string s).
Proof. intros H i c a r. by apply string_committed. Qed.
Lemma sep_end_by_total {A B} (p : parser A) (sep : parser B) : total p -> suffix_of p -> eats p -> total sep -> suffix_of sep -> total (p_sep_end_by p sep).
Proof.
  intros Hp Hs He Ht Hss i.
  assert (H : forall n i, (length i <= n)%nat -> p_sep_rest n p sep i <> PDiv).
  { clear i. assert (Hb : total (p_bind sep (fun _ => p_optional p))) by (apply bind_total; [done|]; intros _; by apply optional_total).
    assert (Hlt : forall i c a r, p_bind sep (fun _ => p_optional p) i = POk c (Some a) r -> (length r < length i)%nat).
    { intros i c a r. unfold p_bind, p_optional. destruct (sep i) as [c1 b1 r1| |] eqn:E1; try done. destruct (p r1) as [c2 a2 r2|[]|] eqn:E2; try done.
      intros [= <- <- <-]. destruct (Hss _ _ _ _ E1) as (p1 & -> & _). destruct (Hs _ _ _ _ E2) as (p2 & -> & _ & T). specialize (T (He _ _ _ _ E2)).
      destruct p2; [done|]. rewrite !app_length. simpl. lia. }
    induction n as [|n IH]; intros i Hi; cbn [p_sep_rest]; (destruct (p_bind sep (fun _ => p_optional p) i) as [c [a|] r| [] |] eqn:E; try done; [|by apply Hb in E]);
      pose proof (Hlt _ _ _ _ E) as Hr; [lia|]. destruct (p_sep_rest n p sep r) eqn:E'; [done|done|]. exfalso. apply (IH r); [lia|done]. }
  unfold p_sep_end_by. destruct (p i) as [c a r| [] |] eqn:E; try done; [|by apply Hp in E]. destruct (p_sep_rest (length r) p sep r) eqn:E'; [done|done|].
  exfalso. by eapply H.
Qed.
Lemma sep_end_by_suffix {A B} (p : parser A) (sep : parser B) : suffix_of p -> suffix_of sep -> suffix_of (p_sep_end_by p sep).
Proof.
  intros Hp Hs.
  assert (Hb : suffix_of (p_bind sep (fun _ => p_optional p))) by (apply bind_suffix; [done|]; intros _; by apply optional_suffix).
  assert (H : forall n, suffix_of (p_sep_rest n p sep)).
  { induction n as [|n IH]; intros i c l r; cbn [p_sep_rest]; (destruct (p_bind sep (fun _ => p_optional p) i) as [c1 [a1|] r1| [] |] eqn:E; try done;
      try (by intros [= <- <- <-]; exists []); try (intros [= <- <- <-]; by eapply Hb)).
    destruct (p_sep_rest n p sep r1) as [c2 l2 r2| |] eqn:E'; try done. intros [= <- <- <-].
    destruct (Hb _ _ _ _ E) as (p1 & -> & F1 & T1). destruct (IH _ _ _ _ E') as (p2 & -> & F2 & T2).
    exists (p1 ++ p2). split; [by rewrite app_assoc|]. split.
    - intros [H1 H2]%orb_false_iff. by rewrite F1, F2.
    - intros [H1|H2]%orb_true_iff E0; apply app_eq_nil in E0 as [E1 E2]; [by apply T1|by apply T2]. }
  intros i c l r. unfold p_sep_end_by. destruct (p i) as [c1 a1 r1| [] |] eqn:E; try done; [|intros [= <- <- <-]; by exists []].
  destruct (p_sep_rest (length r1) p sep r1) as [c2 l2 r2| |] eqn:E'; try done. intros [= <- <- <-].
  destruct (Hp _ _ _ _ E) as (p1 & -> & F1 & T1). destruct (H _ _ _ _ _ E') as (p2 & -> & F2 & T2).
  exists (p1 ++ p2). split; [by rewrite app_assoc|]. split.
  - intros [H1 H2]%orb_false_iff. by rewrite F1, F2.
  - intros [H1|H2]%orb_true_iff E0; apply app_eq_nil in E0 as [E1 E2]; [by apply T1|by apply T2].
Qed.
Lemma skip_until_total e : total e -> total (p_skip_until e).
Proof.
  intros H i. induction i as [|c i IH]; cbn [p_skip_until]; (destruct (e _) as [| [] |] eqn:E; try done; try (by apply H in E)).
  by destruct (p_skip_until e i).
Qed.
Lemma skip_until_suffix e : suffix_of (p_skip_until e).
Proof.
  intros i. induction i as [|d i IH]; intros c a r; cbn [p_skip_until]; (destruct (e _) as [| [] |] eqn:E; try done; try (by intros [= <- <- <-]; exists [])).
  destruct (p_skip_until e i) as [c1 a1 r1| |] eqn:E'; try done. intros [= <- <- <-]. destruct (IH _ _ _ eq_refl) as (pre & -> & _). by exists (d :: pre).
Qed.
Create HintDb parse.
Global Hint Resolve satisfy_total satisfy_suffix satisfy_eats string_total string_suffix bind_total bind_suffix bind_eats map_total map_suffix or_total or_suffix or_eats
  optional_total optional_suffix many_total many_suffix sep_end_by_total sep_end_by_suffix skip_until_total skip_until_suffix ret_total ret_suffix : parse.
Lemma string_eats' c s : eats (p_string (c :: s)).
Proof. by apply string_eats. Qed.
Global Hint Extern 1 (eats (p_string _)) => apply string_eats' : parse.
Lemma arg_eats : eats parse_arg.
Proof. apply bind_eats. unfold p_char. eauto 20 with parse. Qed.
Lemma arg_total : total parse_arg.
Proof. unfold parse_arg, p_many1, p_char. apply bind_total; [eauto 20 with parse|]. intros a. apply map_total. apply many_total; eauto 20 with parse. Qed.
Lemma arg_suffix : suffix_of parse_arg.
Proof. unfold parse_arg, p_many1, p_char. apply bind_suffix; [eauto 20 with parse|]. intros a. apply map_suffix. apply many_suffix; eauto 20 with parse. Qed.
Lemma spaces_total : total (p_skip_many p_space).
Proof. unfold p_skip_many, p_space. apply map_total. apply many_total; eauto with parse. Qed.
Lemma spaces_suffix : suffix_of (p_skip_many p_space).
Proof. unfold p_skip_many, p_space. apply map_suffix. apply many_suffix; eauto with parse. Qed.
Global Hint Resolve arg_eats arg_total arg_suffix spaces_total spaces_suffix : parse.
Lemma between_total {A} (p : parser A) : total p -> total (p_between (p_char "(") (p_char ")") p).
Proof. intros H. unfold p_between, p_char. apply bind_total; [eauto with parse|]. intros _. apply bind_total; [done|]. intros x. eauto with parse. Qed.
Lemma between_suffix {A} (p : parser A) : suffix_of p -> suffix_of (p_between (p_char "(") (p_char ")") p).
Proof. intros H. unfold p_between, p_char. apply bind_suffix; [eauto with parse|]. intros _. apply bind_suffix; [done|]. intros x. eauto with parse. Qed.
Global Hint Resolve between_total between_suffix : parse.
Lemma as_needed_facts : total parse_as_needed_command /\ suffix_of parse_as_needed_command /\ eats parse_as_needed_command.
Proof.
  split; [|split]; [| |intros i c a r; apply as_needed_committed].
  - unfold parse_as_needed_command. apply bind_total; [eauto with parse|]. intros _. apply bind_total; [eauto with parse|]. intros _. apply map_total, between_total.
    apply bind_total; [eauto with parse|]. intros _. eauto with parse.
  - unfold parse_as_needed_command. apply bind_suffix; [eauto with parse|]. intros _. apply bind_suffix; [eauto with parse|]. intros _. apply map_suffix, between_suffix.
    apply bind_suffix; [eauto with parse|]. intros _. eauto with parse.
Qed.
Lemma group_facts : total parse_group_command /\ suffix_of parse_group_command.
Proof.
  destruct as_needed_facts as (H1 & H2 & H3). split.
  - unfold parse_group_command. apply bind_total; [eauto with parse|]. intros _. apply bind_total; [eauto with parse|]. intros _. apply map_total, between_total.
    apply bind_total; [eauto with parse|]. intros _. apply sep_end_by_total; eauto with parse; apply or_eats; try done; apply bind_eats; apply arg_eats.
  - unfold parse_group_command. apply bind_suffix; [eauto with parse|]. intros _. apply bind_suffix; [eauto with parse|]. intros _. apply map_suffix, between_suffix.
    apply bind_suffix; [eauto with parse|]. intros _. apply sep_end_by_suffix; eauto with parse.
Qed.
Lemma format_facts : total parse_output_format_command /\ suffix_of parse_output_format_command.
Proof.
  split.
  - unfold parse_output_format_command. apply bind_total; [eauto with parse|]. intros _. apply bind_total; [eauto with parse|]. intros _. apply map_total, between_total.
    apply bind_total; [eauto with parse|]. intros _. apply bind_total; eauto with parse.
  - unfold parse_output_format_command. apply bind_suffix; [eauto with parse|]. intros _. apply bind_suffix; [eauto with parse|]. intros _. apply map_suffix, between_suffix.
    apply bind_suffix; [eauto with parse|]. intros _. apply bind_suffix; eauto with parse.
Qed.
Lemma comment_facts : total parse_comment /\ suffix_of parse_comment /\ eats parse_comment.
Proof.
  unfold parse_comment, p_between. split; [|split].
  - apply bind_total; [eauto with parse|]. intros _. apply bind_total; [eauto with parse|]. eauto with parse.
  - apply bind_suffix; [eauto with parse|]. intros _. apply bind_suffix; [eauto with parse|]. eauto with parse.
  - apply bind_eats. apply string_eats'.
Qed.
Lemma blank_facts : total blank_item /\ suffix_of blank_item /\ eats blank_item.
Proof.
  destruct comment_facts as (H1 & H2 & H3). unfold blank_item, p_skip_many1, p_many1, p_space, p_char. split; [|split].
  - apply or_total; [apply map_total, bind_total; [eauto with parse|]; intros a; apply map_total, many_total; eauto with parse|eauto with parse].
  - apply or_suffix; [apply map_suffix, bind_suffix; [eauto with parse|]; intros a; apply map_suffix, many_suffix; eauto with parse|eauto with parse].
  - apply or_eats; [apply bind_eats, bind_eats; eauto with parse|]. apply or_eats; [done|]. apply bind_eats. eauto with parse.
Qed.
Lemma line_total : total parse_line.
Proof.
  destruct blank_facts as (H1 & H2 & H3). unfold parse_line, skip_ws_and_comments. fold blank_item. apply bind_total.
  - apply map_total, many_total; done.
  - intros _. apply optional_total, or_total; [apply group_facts|apply format_facts].
Qed.
Lemma line_suffix : suffix_of parse_line.
Proof.
  destruct blank_facts as (H1 & H2 & H3). unfold parse_line, skip_ws_and_comments. fold blank_item. apply bind_suffix.
  - apply map_suffix, many_suffix; done.
  - intros _. apply optional_suffix, or_suffix; [apply group_facts|apply format_facts].
Qed.
Lemma tokens_err s : forall i b, p_tokens true s i = PErr b -> b = true.
Proof. induction s as [|x s IH]; intros [|y i] b; simpl; try done; try (by intros [= <-]). destruct (Ascii.eqb x y); [apply IH|by intros [= <-]]. Qed.
Lemma string_err c s i b : p_string (c :: s) (c :: i) = PErr b -> b = true.
Proof. unfold p_string. cbn [p_tokens]. rewrite Ascii.eqb_refl. apply tokens_err. Qed.
Lemma string_then_err {B} c s i (f : unit -> parser B) b : p_bind (p_string (c :: s)) f (c :: i) = PErr b -> b = true.
Proof.
  unfold p_bind. destruct (p_string (c :: s) (c :: i)) as [c1 u r| |] eqn:E; [|intros [= <-]; by eapply string_err|done].
  rewrite (string_eats' _ _ _ _ _ _ E). destruct (f u r); [done|by intros [= <-]|done].
Qed.

(** A round that makes no progress leaves the input as it is. *)
Lemma line_stuck i args r b : parse_line i = POk b args r -> r <> [] -> length r = length i ->
  r = i /\ args = None /\ exists c i', i = c :: i' /\ ¬ space_char c /\ c ∉ ["/"; "G"; "O"]%char.
Proof.
  intros E Hr Hl. destruct (line_suffix _ _ _ _ E) as (pre & Ei & _). assert (pre = []) as ->.
  { rewrite Ei, app_length in Hl. destruct pre; [done|simpl in Hl; lia]. }
  simpl in Ei. subst r. split; [done|]. destruct i as [|c i]; [done|].
  unfold parse_line, p_bind in E. destruct (skip_ws_and_comments (c :: i)) as [b1 [] r1| |] eqn:E1; [|done|done].
  destruct (p_optional _ r1) as [b2 o r2| |] eqn:E2; [|done|done]. injection E as Eb Eo Er2.
  destruct blank_facts as (B1 & B2 & B3). destruct group_facts as [G1 G2]. destruct format_facts as [F1 F2].
  assert (HS : suffix_of skip_ws_and_comments). { unfold skip_ws_and_comments. fold blank_item. apply map_suffix, many_suffix; done. }
  assert (HO : suffix_of (p_optional (p_or parse_group_command parse_output_format_command))) by eauto with parse.
  destruct (HS _ _ _ _ E1) as (p1 & Ep1 & _ & T1). destruct (HO _ _ _ _ E2) as (p2 & Ep2 & _ & T2). subst r2.
  assert (p1 = [] /\ p2 = []) as [-> ->].
  { apply (f_equal length) in Ep1. apply (f_equal length) in Ep2. rewrite app_length in Ep1, Ep2. destruct p1, p2; simpl in *; try done; lia. }
  simpl in Ep1, Ep2. subst r1. clear Ep2.
  assert (Hb1 : b1 = false) by (destruct b1; [by specialize (T1 eq_refl)|done]). assert (Hb2 : b2 = false) by (destruct b2; [by specialize (T2 eq_refl)|done]). subst b1 b2.
  assert (Hblank : blank_item (c :: i) = PErr false).
  { unfold skip_ws_and_comments in E1. fold blank_item in E1. unfold p_skip_many, p_map, p_bind, p_many in E1. cbn [length p_many_fuel] in E1.
    destruct (blank_item (c :: i)) as [b3 u r3|[]|] eqn:E3; try done. exfalso. destruct (p_many_fuel _ _ _); try done. rewrite (B3 _ _ _ _ E3) in E1. done. }
  assert (Hcmd : p_or parse_group_command parse_output_format_command (c :: i) = PErr false /\ o = None).
  { unfold p_optional in E2. destruct (p_or _ _ _) as [b3 u r3|[]|] eqn:E3; try done; [|by injection E2 as <-]. exfalso. injection E2 as -> _ _. unfold p_or in E3.
    destruct (parse_group_command (c :: i)) as [b4 u4 r4|[]|] eqn:E4; try done.
    - injection E3 as -> _ _. assert (He : eats parse_group_command) by (apply bind_eats, string_eats'). by specialize (He _ _ _ _ E4).
    - assert (He : eats parse_output_format_command) by (apply bind_eats, string_eats'). by specialize (He _ _ _ _ E3). }
  destruct Hcmd as [Hcmd ->]. split; [by symmetry|]. exists c, i. split; [done|]. split.
  - intros Hc. apply space_spec in Hc. unfold blank_item, p_or, p_skip_many1, p_map, p_many1, p_bind, p_space in Hblank. cbn [p_satisfy] in Hblank. rewrite Hc in Hblank.
    assert (HT : total (p_map (cons c) (p_many (p_satisfy is_whitespace)))) by (apply map_total, many_total; eauto with parse).
    specialize (HT i). destruct (p_map (cons c) (p_many (p_satisfy is_whitespace)) i); simpl in HT, Hblank; congruence.
  - rewrite !elem_of_cons, elem_of_nil. intros [->|[->|[->|[]]]].
    + unfold blank_item, p_or in Hblank. change (p_skip_many1 p_space ("/"%char :: i)) with (@PErr unit false) in Hblank. cbv iota in Hblank.
      destruct (parse_comment ("/"%char :: i)) as [|b0|] eqn:E3; try done.
      apply string_then_err in E3. subst b0. done.
    + unfold p_or in Hcmd. destruct (parse_group_command ("G"%char :: i)) as [|b0|] eqn:E3; try done. apply string_then_err in E3. subst b0. done.
    + unfold p_or in Hcmd. change (parse_group_command ("O"%char :: i)) with (@PErr (list chars) false) in Hcmd. cbv iota in Hcmd.
      by apply string_then_err in Hcmd.
Qed.
Lemma loop_stuck i args b : parse_line i = POk b args i -> i <> [] -> forall fuel acc, parse_loop fuel acc i = SRunning.
Proof. intros E Hi fuel. induction fuel as [|fuel IH]; intros acc; [done|]. cbn [parse_loop]. rewrite E. destruct i; [done|]. apply IH. Qed.
Lemma loop_result : forall n i, (length i <= n)%nat ->
  (forall acc, exists r, r <> SRunning /\ forall fuel, (length i < fuel)%nat -> parse_loop fuel acc i = r) \/
  ((forall fuel acc, parse_loop fuel acc i = SRunning) /\ exists pre c rest, i = pre ++ c :: rest /\ ¬ space_char c /\ c ∉ ["/"; "G"; "O"]%char).
Proof.
  induction n as [n IH] using lt_wf_ind. intros i Hi. destruct (parse_line i) as [b args r|b|] eqn:E.
  - destruct r as [|d r].
    + left. intros acc. exists (SArgs (acc ++ default [] args)). split; [done|]. intros [|fuel] Hf; [lia|]. cbn [parse_loop]. by rewrite E.
    + destruct (line_suffix _ _ _ _ E) as (pre & Ei & _). destruct pre as [|p pre].
      * simpl in Ei. destruct (line_stuck _ _ _ _ E) as (_ & _ & c & i' & -> & H1 & H2); [done|by rewrite Ei|]. right. split.
        -- apply (loop_stuck _ args b); [|done]. by rewrite E, Ei.
        -- exists [], c, i'. done.
      * assert (Hlt : (length (d :: r) < length i)%nat) by (rewrite Ei, app_length; simpl; lia).
        destruct (IH (length (d :: r)) ltac:(lia) (d :: r) ltac:(lia)) as [H|[H (pre' & c & rest & Ed & H1 & H2)]].
        -- left. intros acc. destruct (H (acc ++ default [] args)) as (res & Hres & Hf). exists res. split; [done|]. intros [|fuel] Hfu; [lia|].
           cbn [parse_loop]. rewrite E. apply Hf. lia.
        -- right. split.
           ++ intros [|fuel] acc; [done|]. cbn [parse_loop]. rewrite E. apply H.
           ++ exists ((p :: pre) ++ pre'), c, rest. split; [|done]. by rewrite Ei, Ed, <- app_assoc.
  - left. intros acc. exists SError. split; [done|]. intros [|fuel] Hf; [lia|]. cbn [parse_loop]. by rewrite E.
  - by apply line_total in E.
Qed.
