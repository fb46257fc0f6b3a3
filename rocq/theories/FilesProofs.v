(** Lemmas about the file layer of the command line. *)
From Coq Require Import String Lia.
From Verif Require Import PyBase Env PyNum Validate Basic TxInput TxOutput Tx Create Logger Cli Files FilesSpec.
From Verif Require Import HexProofs.
Open Scope Z_scope.

Lemma given_text_some : forall o x, given_text o = Some x <-> given o x.
Proof.
  intros [[|c r]|] x; unfold given_text, given; split; try discriminate.
  - intros [H N]. injection H as <-. elim N; reflexivity.
  - intros H. injection H as <-. split; [reflexivity|discriminate].
  - intros [H _]. exact H.
  - intros [H _]. discriminate.
Qed.
Lemma given_text_none : forall o, given_text o = None <-> not_given o.
Proof.
  intros [[|c r]|]; unfold given_text, not_given; split; auto; try discriminate. intros [H|H]; discriminate.
Qed.
Lemma given_or_not : forall o, (exists x, given o x) \/ not_given o.
Proof. intros o. destruct (given_text o) as [x|] eqn:G; [left; exists x; apply given_text_some; exact G|right; apply given_text_none; exact G]. Qed.
Lemma given_fun : forall o x y, given o x -> given o y -> x = y.
Proof. intros o x y [A _] [B _]. congruence. Qed.
Lemma given_not : forall o x, given o x -> not_given o -> False.
Proof. intros o x [A N] [B|B]; rewrite A in B; [discriminate|]. injection B as ->. apply N; reflexivity. Qed.

Lemma mapM_reads : forall (fs : file_system) l l', mapM (fs_read fs) l = Ok l' <-> Forall2 (holds fs) l l'.
Proof.
  intros fs. unfold holds. induction l as [|x l IH]; intros l'; cbn [mapM].
  - split; [intros H; injection H as <-; constructor|inversion 1; auto].
  - split.
    + destruct (fs_read fs x) as [s|] eqn:R; [|discriminate]. cbn [bind]. destruct (mapM (fs_read fs) l) as [ys|] eqn:M; [|discriminate]. cbn [bind]. intros H. injection H as <-. constructor; auto. apply IH; auto.
    + inversion 1 as [|? s ? ys A B]; subst. rewrite A. cbn [bind]. apply IH in B. rewrite B. reflexivity.
Qed.
Lemma mapM_unread : forall (fs : file_system) l e, mapM (fs_read fs) l = Err e <-> first_unreadable fs l e.
Proof.
  intros fs. unfold first_unreadable, holds. induction l as [|x l IH]; intros e; cbn [mapM].
  - split; [discriminate|]. intros (b & f & a & Q & _). destruct b; discriminate.
  - destruct (fs_read fs x) as [s|e'] eqn:R; cbn [bind].
    + assert (K : (exists before f after, l = before ++ [f] ++ after /\ (forall x, In x before -> exists s, fs_read fs x = Ok s) /\ fs_read fs f = Err e) <->
                  (exists before f after, x :: l = before ++ [f] ++ after /\ (forall x, In x before -> exists s, fs_read fs x = Ok s) /\ fs_read fs f = Err e)).
      { split.
        - intros (b & f & a & -> & F & H). exists (x :: b), f, a. split; [reflexivity|]. split; auto. intros y [<-|I]; eauto.
        - intros (b & f & a & Q & F & H). destruct b as [|y b]; [injection Q as <- _; congruence|]. injection Q as <- ->. exists b, f, a. split; auto. split; auto. intros z I. apply F. now right. }
      rewrite <- K, <- IH. destruct (mapM (fs_read fs) l); cbn [bind]; split; congruence.
    + split.
      * intros H. exists [], x, l. split; auto. split; [intros ? []|congruence].
      * intros (b & f & a & Q & F & H). destruct b as [|y b]; [injection Q as <- _; congruence|]. injection Q as <- _. destruct (F x) as (s & S); [now left|]. congruence.
Qed.

(** * Names *)
Lemma rfind_none : forall c s i last, ~ In c s -> rfind_from c s i last = last.
Proof.
  intros c. induction s as [|x s IH]; intros i last N; [reflexivity|]. cbn [rfind_from]. destruct (Z.eqb_spec x c) as [->|]; [elim N; now left|]. apply IH. intros I; apply N; now right.
Qed.
Lemma rfind_last : forall c a b i last, ~ In c b -> rfind_from c (a ++ c :: b) i last = i + Z.of_nat (length a).
Proof.
  intros c. induction a as [|x a IH]; intros b i last N; cbn [app rfind_from].
  - rewrite Z.eqb_refl, rfind_none by auto. cbn [length]. lia.
  - rewrite IH by auto. cbn [length]. lia.
Qed.
Lemma last_split : forall c (s : pystr), In c s -> exists a b, s = a ++ c :: b /\ ~ In c b.
Proof.
  intros c. induction s as [|x s IH]; intros I; [destruct I|]. destruct (in_dec Z.eq_dec c s) as [J|J].
  - destruct (IH J) as (a & b & -> & N). exists (x :: a), b. auto.
  - destruct I as [->|I]; [|contradiction]. exists [], s. auto.
Qed.
Lemma last_unique : forall c (a b a' b' : pystr), a ++ c :: b = a' ++ c :: b' -> ~ In c b -> ~ In c b' -> a = a' /\ b = b'.
Proof.
  intros c. induction a as [|x a IH]; intros b a' b' Q N N'.
  - destruct a' as [|y a']; [injection Q; auto|]. injection Q as <- ->. elim N. apply in_or_app. right. now left.
  - destruct a' as [|y a']. { injection Q as -> <-. elim N'. apply in_or_app. right. now left. }
    injection Q as <- Q. destruct (IH b a' b' Q N N') as [-> ->]. auto.
Qed.
Lemma txt_no_dot : ~ In 46 (lit "txt").
Proof. intros I. cbn in I. lia. Qed.
Lemma splitext_name : forall x, ~ In 47 x -> str_eqb (splitext_1 x) (lit ".txt") = true <-> key_file_name x.
Proof.
  intros x N. rewrite str_eqb_eq. unfold splitext_1, rfind. rewrite (rfind_none 47 x 0 (-1) N). destruct (in_dec Z.eq_dec 46 x) as [I|I].
  - destruct (last_split 46 x I) as (a & b & -> & NB). rewrite (rfind_last 46 a b 0 (-1) NB).
    replace (-1 <? 0 + Z.of_nat (length a)) with true by (symmetry; apply Z.ltb_lt; lia). replace (Z.to_nat (0 + Z.of_nat (length a) - (-1 + 1))) with (length a) by lia.
    replace (Z.to_nat (-1 + 1)) with O by reflexivity. cbn [skipn]. replace (Z.to_nat (0 + Z.of_nat (length a))) with (length a) by lia.
    rewrite firstn_app, Nat.sub_diag, firstn_all, firstn_O, app_nil_r. rewrite skipn_app, skipn_all, Nat.sub_diag. cbn [app skipn]. split.
    + destruct (existsb (fun c => negb (c =? 46)) a) eqn:EX; [|discriminate]. intros Q. apply existsb_exists in EX as (c & IC & NC). apply negb_true_iff, Z.eqb_neq in NC.
      exists a, c. split; [|auto]. rewrite Q. reflexivity.
    + intros (stem & c & Q & IC & NC). change (lit ".txt") with (46 :: lit "txt") in *. destruct (last_unique 46 a b stem (lit "txt") Q NB txt_no_dot) as [-> ->].
      replace (existsb (fun c => negb (c =? 46)) stem) with true; [reflexivity|]. symmetry. apply existsb_exists. exists c. split; auto. apply negb_true_iff, Z.eqb_neq. auto.
  - rewrite (rfind_none 46 x 0 (-1) I). cbn [Z.ltb Z.compare]. split; [discriminate|]. intros (stem & c & -> & _). elim I. apply in_or_app. right. now left.
Qed.
Lemma join_in_dir : forall d x y, d <> [] -> x <> [] -> ~ In 47 x -> path_join d x = y <-> in_dir d x y.
Proof.
  intros d x y D X N. unfold path_join, in_dir. change (lit "/") with [47].
  assert (FX : first_is 47 x = false). { destruct x as [|c x]; [reflexivity|]. cbn [first_is]. apply Z.eqb_neq. intros ->. apply N. now left. }
  rewrite FX. clear FX. replace (match d with [] => true | _ => first_is 47 (rev d) end) with (first_is 47 (rev d)) by (destruct d; [congruence|reflexivity]).
  destruct (rev d) as [|c r] eqn:R. { apply (f_equal (@rev Z)) in R. rewrite rev_involutive in R. cbn in R. congruence. }
  assert (DQ : d = rev r ++ [c]) by (rewrite <- (rev_involutive d), R; reflexivity). cbn [first_is].
  destruct (Z.eqb_spec c 47) as [->|NC].
  - split; [intros <-; left; exists (rev r); auto|]. intros [(d' & _ & ->)|[H _]]; [reflexivity|]. elim (H (rev r)). exact DQ.
  - split.
    + intros <-. right. split; auto. intros d' Q. rewrite DQ in Q. apply app_inj_tail in Q as [_ Q]. congruence.
    + intros [(d' & Q & _)|[_ ->]]; [|reflexivity]. rewrite DQ in Q. apply app_inj_tail in Q as [_ Q]. congruence.
Qed.

Lemma picked_filter : forall {A} (P : A -> Prop) (f : A -> bool) l l', (forall x, In x l -> f x = true <-> P x) -> filter f l = l' <-> picked P l l'.
Proof.
  intros A P f. induction l as [|x l IH]; intros l' H; cbn [filter].
  - split; [intros <-; constructor|inversion 1; auto].
  - assert (IHl : forall l', filter f l = l' <-> picked P l l') by (intros; apply IH; intros y I; apply H; now right). pose proof (H x (or_introl eq_refl)) as HX. destruct (f x).
    + split.
      * intros <-. constructor; [apply HX; reflexivity|]. apply IHl. reflexivity.
      * inversion 1 as [|? ? l2 PX PK|? ? l2 PX PK]; subst; [|elim PX; apply HX; reflexivity]. f_equal. apply IHl; auto.
    + split.
      * intros <-. apply picked_skip; [intros Q; apply HX in Q; discriminate|]. apply IHl. reflexivity.
      * inversion 1 as [|? ? l2 PX PK|? ? l2 PX PK]; subst; [apply HX in PX; discriminate|]. apply IHl; auto.
Qed.
Lemma picked_In : forall {A} (P : A -> Prop) l l' x, picked P l l' -> In x l' -> In x l.
Proof. intros A P l l' x H. induction H as [|y l l' _ _ IH|y l l' _ _ IH]; cbn [In]; intuition. Qed.
Lemma map_in_dir : forall d l l', d <> [] -> (forall x, In x l -> x <> [] /\ ~ In 47 x) -> map (path_join d) l = l' <-> Forall2 (in_dir d) l l'.
Proof.
  intros d l l' D. revert l'. induction l as [|x l IH]; intros l' H; cbn [map].
  - split; [intros <-; constructor|inversion 1; auto].
  - destruct (H x (or_introl eq_refl)) as [X1 X2]. split.
    + intros <-. constructor; [apply join_in_dir; auto|]. apply IH; auto. intros y I; apply H; now right.
    + inversion 1 as [|? y ? l2 A B]; subst. f_equal; [apply join_in_dir; auto|]. apply IH; auto. intros z I; apply H; now right.
Qed.

Section Dir.
Context (fs : file_system) (p : parsed) (LO : listing_ok fs).
Lemma dir_iff : forall d names, given (p_private_key_dir p) d -> fs_list fs d = Ok names ->
  forall paths, map (path_join d) (filter (fun x => str_eqb (splitext_1 x) (lit ".txt")) names) = paths <-> dir_paths fs p paths.
Proof.
  intros d names G L paths. assert (D : d <> []) by apply G. assert (K : forall x, In x names -> x <> [] /\ ~ In 47 x) by (intros; eapply LO; eauto).
  assert (PF : picked key_file_name names (filter (fun x => str_eqb (splitext_1 x) (lit ".txt")) names)).
  { apply (picked_filter key_file_name (fun x => str_eqb (splitext_1 x) (lit ".txt"))); [|reflexivity]. intros x I. apply splitext_name. apply K; auto. }
  split.
  - intros <-. right. eexists d, names, _. split; auto. split; auto. split; [exact PF|]. apply map_in_dir; auto. intros x I. apply K. eapply picked_In; eauto.
  - intros [[N _]|(d' & names' & chosen & G' & L' & PK & F)]; [elim (given_not _ _ G N)|]. pose proof (given_fun _ _ _ G G'). subst d'. rewrite L in L'. injection L' as <-.
    apply (picked_filter key_file_name (fun x => str_eqb (splitext_1 x) (lit ".txt"))) in PK as Q; [|intros x I; apply splitext_name; apply K; auto].
    subst chosen. apply map_in_dir; auto. intros x I. apply K. eapply picked_In; eauto.
Qed.
Lemma dir_none : not_given (p_private_key_dir p) -> forall paths, dir_paths fs p paths <-> paths = [].
Proof.
  intros N paths. split; [intros [[_ Q]|(d & ? & ? & G & _)]; [auto|elim (given_not _ _ G N)]|]. intros ->. left. auto.
Qed.

Lemma files_of : (match p_private_key_file p with Some l => mapM (fs_read fs) (concat l) | None => Ok [] end) = mapM (fs_read fs) (all_of (p_private_key_file p)).
Proof. unfold all_of. destruct (p_private_key_file p); reflexivity. Qed.
Lemma key_files_ok : forall texts, key_files fs p = Ok texts <-> keys_content fs p texts.
Proof.
  intros texts. unfold key_files, keys_content. rewrite files_of.
  destruct (given_text (p_private_key_dir p)) as [d|] eqn:G.
  - apply given_text_some in G. destruct (fs_list fs d) as [names|e] eqn:L.
    + cbn [bind]. set (ps := map (path_join d) (filter (fun x => str_eqb (splitext_1 x) (lit ".txt")) names)).
      assert (DP : dir_paths fs p ps) by (apply (dir_iff d names G L); reflexivity). split.
      * intros H. destruct (mapM (fs_read fs) (all_of (p_private_key_file p))) as [l1|] eqn:M1; [|discriminate]. cbn [bind] in H. destruct (mapM (fs_read fs) ps) as [l2|] eqn:M2; [|discriminate]. injection H as <-.
        exists ps. split; auto. apply Forall2_app; apply mapM_reads; auto.
      * intros (paths & DP' & F). apply (dir_iff d names G L) in DP'. fold ps in DP'. subst paths. apply Forall2_app_inv_l in F as (l1 & l2 & F1 & F2 & ->).
        apply mapM_reads in F1, F2. rewrite F1, F2. reflexivity.
    + split.
      * cbn [bind]. destruct (mapM (fs_read fs) (all_of (p_private_key_file p))); discriminate.
      * intros (paths & [[N _]|(d' & names & chosen & G' & L' & _)] & _); [elim (given_not _ _ G N)|]. pose proof (given_fun _ _ _ G G'). subst. congruence.
  - apply given_text_none in G. split.
    + intros H. destruct (mapM (fs_read fs) (all_of (p_private_key_file p))) as [l1|] eqn:M1; [|discriminate]. cbn [bind] in H. injection H as <-. exists []. split; [apply dir_none; auto|]. rewrite !app_nil_r. apply mapM_reads; auto.
    + intros (paths & DP & F). apply dir_none in DP; auto. subst paths. rewrite app_nil_r in F. apply mapM_reads in F. rewrite F. cbn [bind]. rewrite app_nil_r. reflexivity.
Qed.
Lemma key_files_err : forall e, key_files fs p = Err e <->
  (first_unreadable fs (all_of (p_private_key_file p)) e \/
      ((exists l, Forall2 (holds fs) (all_of (p_private_key_file p)) l) /\
         ((exists d, given (p_private_key_dir p) d /\ fs_list fs d = Err e) \/ (exists paths, dir_paths fs p paths /\ first_unreadable fs paths e)))).
Proof.
  intros e. unfold key_files. rewrite files_of. destruct (mapM (fs_read fs) (all_of (p_private_key_file p))) as [l1|e1] eqn:M1; cbn [bind].
  - assert (NF : ~ first_unreadable fs (all_of (p_private_key_file p)) e) by (intros F; apply mapM_unread in F; congruence).
    assert (F1 : exists l, Forall2 (holds fs) (all_of (p_private_key_file p)) l) by (exists l1; apply mapM_reads; auto).
    assert (RD : forall X : Prop, (first_unreadable fs (all_of (p_private_key_file p)) e \/ (exists l, Forall2 (holds fs) (all_of (p_private_key_file p)) l) /\ X) <-> X) by (intros; tauto).
    rewrite RD. clear RD. destruct (given_text (p_private_key_dir p)) as [d|] eqn:G.
    + apply given_text_some in G. destruct (fs_list fs d) as [names|e2] eqn:L; cbn [bind].
      * set (ps := map (path_join d) (filter (fun x => str_eqb (splitext_1 x) (lit ".txt")) names)). assert (DP : dir_paths fs p ps) by (apply (dir_iff d names G L); reflexivity).
        destruct (mapM (fs_read fs) ps) as [l2|e2] eqn:M2; cbn [bind].
        -- split; [discriminate|]. intros [(d' & G' & L')|(paths & DP' & F)]; [pose proof (given_fun _ _ _ G G'); subst; congruence|].
           apply (dir_iff d names G L) in DP'. fold ps in DP'. subst paths. apply mapM_unread in F. congruence.
        -- split.
           ++ intros H. injection H as <-. right. exists ps. split; auto. apply mapM_unread. auto.
           ++ intros [(d' & G' & L')|(paths & DP' & F)]; [pose proof (given_fun _ _ _ G G'); subst; congruence|].
              apply (dir_iff d names G L) in DP'. fold ps in DP'. subst paths. apply mapM_unread in F. congruence.
      * split; [intros H; injection H as <-; left; eauto|]. intros [(d' & G' & L')|(paths & [[N _]|(d' & names & chosen & G' & L' & _)] & F)].
        -- pose proof (given_fun _ _ _ G G'). subst. congruence.
        -- elim (given_not _ _ G N).
        -- pose proof (given_fun _ _ _ G G'). subst. congruence.
    + apply given_text_none in G. cbn [bind]. split; [discriminate|]. intros [(d' & G' & L')|(paths & DP & F)]; [elim (given_not _ _ G' G)|].
      apply dir_none in DP; auto. subst paths. destruct F as (b & f & a & Q & _). destruct b; discriminate.
  - split.
    + intros H. injection H as <-. left. apply mapM_unread. auto.
    + intros [F|((l & F) & _)]; [apply mapM_unread in F; congruence|]. apply mapM_reads in F. congruence.
Qed.
Lemma read_data_ok : forall d, read_data fs p = Ok d <-> data_content fs p d.
Proof.
  intros d. unfold read_data, data_content. destruct (given_text (p_data_file p)) as [f|] eqn:G.
  - apply given_text_some in G. unfold holds. destruct (fs_read fs f) as [s|e] eqn:R; cbn [bind].
    + split; [intros H; injection H as <-; right; eauto|]. intros [[N _]|(f' & t & G' & H & ->)]; [elim (given_not _ _ G N)|]. pose proof (given_fun _ _ _ G G'). subst. congruence.
    + split; [discriminate|]. intros [[N _]|(f' & t & G' & H & ->)]; [elim (given_not _ _ G N)|]. pose proof (given_fun _ _ _ G G'). subst. congruence.
  - apply given_text_none in G. split; [intros H; injection H as <-; left; auto|]. intros [[_ ->]|(f & t & G' & _)]; [reflexivity|elim (given_not _ _ G' G)].
Qed.
Lemma read_data_err : forall e, read_data fs p = Err e <-> exists f, given (p_data_file p) f /\ fs_read fs f = Err e.
Proof.
  intros e. unfold read_data. destruct (given_text (p_data_file p)) as [f|] eqn:G.
  - apply given_text_some in G. destruct (fs_read fs f) as [s|e'] eqn:R; cbn [bind].
    + split; [discriminate|]. intros (f' & G' & H). pose proof (given_fun _ _ _ G G'). subst. congruence.
    + split; [intros H; injection H as <-; eauto|]. intros (f' & G' & H). pose proof (given_fun _ _ _ G G'). subst. congruence.
  - apply given_text_none in G. split; [discriminate|]. intros (f & G' & _). elim (given_not _ _ G' G).
Qed.
Lemma with_contents_ok : forall c, with_contents fs p = Ok c <-> exists d l, data_content fs p d /\ keys_content fs p l /\
  c = mk_args (p_task p) (all_of (p_private_key_hex p)) l (p_private_key_wif p) (p_public_key_hex p) (p_signature_hex p) d None None.
Proof.
  intros c. unfold with_contents. split.
  - destruct (read_data fs p) as [d|] eqn:D; [|discriminate]. cbn [bind]. destruct (key_files fs p) as [l|] eqn:K; [|discriminate]. cbn [bind]. intros H. injection H as <-.
    exists d, l. split; [now apply read_data_ok|]. split; [now apply key_files_ok|]. unfold all_of. destruct (p_private_key_hex p); reflexivity.
  - intros (d & l & D & K & ->). apply read_data_ok in D. apply key_files_ok in K. rewrite D. cbn [bind]. rewrite K. cbn [bind]. unfold all_of. destruct (p_private_key_hex p); reflexivity.
Qed.
Lemma with_contents_err : forall e, with_contents fs p = Err e <-> sources_fail fs p e.
Proof.
  intros e. unfold with_contents, sources_fail. destruct (read_data fs p) as [d|e1] eqn:D; cbn [bind].
  - assert (ND : ~ exists f, given (p_data_file p) f /\ fs_read fs f = Err e) by (intros F; apply read_data_err in F; congruence).
    assert (HD : exists d, data_content fs p d) by (exists d; now apply read_data_ok). rewrite <- key_files_err. destruct (key_files fs p) as [l|e2]; cbn [bind]; split; intros H; try discriminate; try tauto.
    + destruct H as [H|[_ H]]; [tauto|discriminate].
    + right. split; auto. congruence.
    + destruct H as [H|[_ H]]; [tauto|congruence].
  - rewrite <- read_data_err, D. split; [intros H; left; congruence|]. intros [H|[(d & H) _]]; [congruence|]. apply read_data_ok in H. congruence.
Qed.
End Dir.
