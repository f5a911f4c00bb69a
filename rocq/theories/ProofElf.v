(** The serializers are read back by the decoders of SpecElf. *)
From Verif Require Export SpecElf ProofEnc.

Lemma blen_app {A} (l1 l2 : list A) : blen (l1 ++ l2) = blen l1 + blen l2.
Proof. unfold blen. rewrite app_length. lia. Qed.
Lemma blen_le_bytes n v : blen (le_bytes n v) = N.of_nat n.
Proof. unfold blen. by rewrite le_bytes_length. Qed.
Lemma blen_le_bytes_z n v : blen (le_bytes_z n v) = N.of_nat n.
Proof. unfold blen. by rewrite le_bytes_z_length. Qed.
Lemma blen_nil {A} : blen (@nil A) = 0. Proof. done. Qed.
Lemma blen_cons {A} (a : A) l : blen (a :: l) = 1 + blen l.
Proof. unfold blen. simpl. lia. Qed.

Lemma drop_skip {A} (pre l : list A) k : drop (N.to_nat (blen pre + k)) (pre ++ l) = drop (N.to_nat k) l.
Proof.
  unfold blen. rewrite N2Nat.inj_add, Nat2N.id. by rewrite <- drop_drop, drop_app.
Qed.
Lemma rd_skip n pre l k : rd n (pre ++ l) (blen pre + k) = rd n l k.
Proof. unfold rd. by rewrite drop_skip. Qed.
Lemma rd_z_skip n pre l k : rd_z n (pre ++ l) (blen pre + k) = rd_z n l k.
Proof. unfold rd_z. by rewrite rd_skip. Qed.
Lemma rd_bytes_skip n pre l k : rd_bytes n (pre ++ l) (blen pre + k) = rd_bytes n l k.
Proof. unfold rd_bytes. by rewrite drop_skip. Qed.
Lemma rd_skip0 n pre l : rd n (pre ++ l) (blen pre) = rd n l 0.
Proof. rewrite <- (rd_skip n pre l 0). f_equal. lia. Qed.
Lemma rd_bytes_skip0 n pre l : rd_bytes n (pre ++ l) (blen pre) = rd_bytes n l 0.
Proof. rewrite <- (rd_bytes_skip n pre l 0). f_equal. lia. Qed.

Lemma rd_here n v post : rd n (le_bytes n v ++ post) 0 = Some (v mod 2 ^ (8 * N.of_nat n)).
Proof. apply (rd_le_bytes n [] v post). Qed.
Lemma rd_next n m v rest k : N.of_nat m <= k -> rd n (le_bytes m v ++ rest) k = rd n rest (k - N.of_nat m).
Proof.
  intros H. rewrite <- (rd_skip n (le_bytes m v) rest). rewrite blen_le_bytes. f_equal. lia.
Qed.
Lemma rd_next_ident n l rest k : length l = 16%nat -> 16 <= k -> rd n (l ++ rest) k = rd n rest (k - 16).
Proof. intros Hl H. rewrite <- (rd_skip n l rest). unfold blen. rewrite Hl. f_equal. lia. Qed.
Lemma rd_z_here n v post : (0 < n)%nat -> (- 2 ^ (8 * Z.of_nat n - 1) <= v < 2 ^ (8 * Z.of_nat n - 1))%Z ->
  rd_z n (le_bytes_z n v ++ post) 0 = Some v.
Proof. intros. by apply (rd_z_le_bytes_z n [] v post). Qed.
Lemma rd_z_next n m v rest k : N.of_nat m <= k -> rd_z n (le_bytes m v ++ rest) k = rd_z n rest (k - N.of_nat m).
Proof. intros H. unfold rd_z. by rewrite rd_next. Qed.

Ltac rd_field :=
  repeat (rewrite rd_next by (by vm_compute));
  repeat (rewrite rd_z_next by (by vm_compute));
  match goal with
  | |- context [rd ?n (le_bytes ?n ?v ++ ?post) ?k] =>
      replace (rd n (le_bytes n v ++ post) k) with (rd n (le_bytes n v ++ post) 0)
        by (f_equal; by vm_compute);
      rewrite rd_here; rewrite N.mod_small by assumption
  | |- context [rd_z ?n (le_bytes_z ?n ?v ++ ?post) ?k] =>
      replace (rd_z n (le_bytes_z n v ++ post) k) with (rd_z n (le_bytes_z n v ++ post) 0)
        by (f_equal; by vm_compute);
      rewrite rd_z_here; [|lia|assumption]
  end; cbn [mbind option_bind].

Ltac rd_record :=
  rewrite <- ?app_assoc; rewrite ?rd_skip, ?rd_skip0, ?rd_z_skip;
  repeat rd_field.

Lemma rd_sym_ser pre s post : sym_fits s -> rd_sym (pre ++ ser_sym s ++ post) (blen pre) = Some s.
Proof.
  intros (H1 & H2 & H3 & H4 & H5 & H6). unfold rd_sym, ser_sym. rd_record. by destruct s.
Qed.
Lemma rd_rela_ser pre s post : rela_fits s -> rd_rela (pre ++ ser_rela s ++ post) (blen pre) = Some s.
Proof.
  intros (H1 & H2 & H3). unfold rd_rela, ser_rela. rd_record. by destruct s.
Qed.
Lemma rd_dyn_ser pre s post : dyn_fits s -> rd_dyn (pre ++ ser_dyn s ++ post) (blen pre) = Some s.
Proof.
  intros (H1 & H2). unfold rd_dyn, ser_dyn. rd_record. by destruct s.
Qed.
Lemma rd_phdr_ser pre s post : phdr_fits s -> rd_phdr (pre ++ ser_phdr s ++ post) (blen pre) = Some s.
Proof.
  intros (H1 & H2 & H3 & H4 & H5 & H6 & H7 & H8). unfold rd_phdr, ser_phdr. rd_record. by destruct s.
Qed.
Lemma rd_shdr_ser pre s post : shdr_fits s -> rd_shdr (pre ++ ser_shdr s ++ post) (blen pre) = Some s.
Proof.
  intros (H1 & H2 & H3 & H4 & H5 & H6 & H7 & H8 & H9 & H10). unfold rd_shdr, ser_shdr. rd_record. by destruct s.
Qed.
Lemma rd_ehdr_ser pre s post : ehdr_fits s -> rd_ehdr (pre ++ ser_ehdr s ++ post) (blen pre) = Some s.
Proof.
  intros (H0 & H1 & H2 & H3 & H4 & H5 & H6 & H7 & H8 & H9 & H10 & H11 & H12 & H13).
  unfold rd_ehdr, ser_ehdr. rewrite <- ?app_assoc. rewrite ?rd_skip, ?rd_bytes_skip0.
  replace (rd_bytes 16 (e_ident s ++ _) 0) with (Some (e_ident s)).
  2: { unfold rd_bytes. change (N.to_nat 0) with 0%nat. rewrite drop_0.
       rewrite take_app_alt by done. by rewrite decide_True. }
  cbn [mbind option_bind].
  rewrite !(rd_next_ident _ (e_ident s)) by (done || lia).
  repeat rd_field. by destruct s.
Qed.

Lemma ser_sym_length s : length (ser_sym s) = 24%nat.
Proof. unfold ser_sym. by rewrite !app_length, !le_bytes_length. Qed.
Lemma ser_rela_length s : length (ser_rela s) = 24%nat.
Proof. unfold ser_rela. by rewrite !app_length, !le_bytes_length, le_bytes_z_length. Qed.
Lemma ser_dyn_length s : length (ser_dyn s) = 16%nat.
Proof. unfold ser_dyn. by rewrite !app_length, !le_bytes_length. Qed.
Lemma ser_phdr_length s : length (ser_phdr s) = 56%nat.
Proof. unfold ser_phdr. by rewrite !app_length, !le_bytes_length. Qed.
Lemma ser_shdr_length s : length (ser_shdr s) = 64%nat.
Proof. unfold ser_shdr. by rewrite !app_length, !le_bytes_length. Qed.
Lemma ser_ehdr_length s : length (e_ident s) = 16%nat -> length (ser_ehdr s) = 64%nat.
Proof. intros H. unfold ser_ehdr. by rewrite !app_length, !le_bytes_length, H. Qed.

Lemma rd_table_ser {A} (rd1 : bytes -> N -> option A) (ser : A -> bytes) (fits : A -> Prop) sz :
  (forall pre a post, fits a -> rd1 (pre ++ ser a ++ post) (blen pre) = Some a) ->
  (forall a, length (ser a) = sz) ->
  forall l pre post, Forall fits l ->
    rd_table rd1 (N.of_nat sz) (length l) (pre ++ (l ≫= ser) ++ post) (blen pre) = Some l.
Proof.
  intros Hrd Hsz l. induction l as [|a l IH]; intros pre post Hf; [done|].
  apply Forall_cons in Hf as [Ha Hl]. cbn [length rd_table]. rewrite bind_cons.
  rewrite <- app_assoc, Hrd by done. cbn [mbind option_bind].
  replace (blen pre + N.of_nat sz) with (blen (pre ++ ser a)) by (rewrite blen_app; unfold blen; rewrite Hsz; done).
  rewrite (app_assoc pre (ser a)). rewrite IH by done. done.
Qed.

(** One entry of a table. *)
Lemma rd_nth_ser {A} (rd1 : bytes -> N -> option A) (ser : A -> bytes) (fits : A -> Prop) sz :
  (forall pre a post, fits a -> rd1 (pre ++ ser a ++ post) (blen pre) = Some a) ->
  (forall a, length (ser a) = sz) ->
  forall l pre post i a, l !! i = Some a -> fits a ->
    rd1 (pre ++ (l ≫= ser) ++ post) (blen pre + N.of_nat sz * N.of_nat i) = Some a.
Proof.
  intros Hrd Hsz l pre post i a Hi Hf. rewrite (bind_split _ _ i a) by done.
  replace (blen pre + N.of_nat sz * N.of_nat i) with (blen (pre ++ (take i l ≫= ser))).
  - rewrite <- !app_assoc. rewrite (app_assoc pre). by apply Hrd.
  - rewrite blen_app. unfold blen at 2. rewrite (bind_length _ _ sz) by done.
    rewrite take_length. apply lookup_lt_Some in Hi. lia.
Qed.
