(** What the command line parser says: the two models agree; the settings. *)
From Coq Require Import String Lia.
From Verif Require Import PyBase Env PyNum Cli Files Args ArgsSpec ArgsSays ArgsSaysSpec NumLemmas HexProofs SignProofs ArgsProofs ArgsMeaningProofs.

Lemma silent_bind : forall (A B : Type) (m : said A) (k : A -> said B), silent (sbind m k) = obind (silent m) (fun a => silent (k a)).
Proof. intros A B m k. destruct m; reflexivity. Qed.
Lemma silent_takes : forall (A : Type) (m : said A) a, silent m = Parsed a -> m = Takes a.
Proof. intros A m a H. destruct m; cbn in H; congruence. Qed.
Lemma obind_ext : forall (A B : Type) (m : outcome A) (f g : A -> outcome B), (forall a, f a = g a) -> obind m f = obind m g.
Proof. intros A B m f g H. destruct m; cbn; auto. Qed.
Lemma sbind_assoc : forall (A B C : Type) (m : said A) (f : A -> said B) (g : B -> said C), sbind (sbind m f) g = sbind m (fun a => sbind (f a) g).
Proof. intros A B C m f g. destruct m; reflexivity. Qed.

Lemma called_name : forall o, action_name o = called o.
Proof. intros o. destruct o; reflexivity. Qed.
Lemma about_error : forall o t, argument_error o t = about o t.
Proof. intros o t. unfold argument_error, about. rewrite called_name. reflexivity. Qed.

Lemma is_seen_iff : forall seen o, is_seen seen o = true <-> In o seen.
Proof.
  intros seen o. unfold is_seen. rewrite existsb_exists. split.
  - intros (a & I & Q). destruct (opt_eq_dec a o) as [->|]; [exact I|discriminate].
  - intros I. exists o. split; auto. destruct (opt_eq_dec o o); congruence.
Qed.
Lemma rivals_iff : forall o b, In b (rivals o) <-> conflicts o b = true.
Proof.
  intros o b. unfold rivals. rewrite filter_In. split; [tauto|]. intros H. split; auto. apply conflicts_iff in H as (_ & [[_ K]|[_ D]]).
  - destruct K as [->|[->|[->| ->]]]; cbn; auto.
  - destruct D as [->| ->]; cbn; auto 8.
Qed.
Lemma find_seen : forall seen o, (find (is_seen seen) (rivals o) = None <-> existsb (conflicts o) seen = false) /\
  (forall b, find (is_seen seen) (rivals o) = Some b -> In b seen /\ conflicts o b = true).
Proof.
  intros seen o. split.
  - split.
    + intros H. destruct (existsb (conflicts o) seen) eqn:Q; auto. apply existsb_exists in Q as (b & I & Q). apply rivals_iff in Q. pose proof (find_none _ _ H b Q) as X.
      apply is_seen_iff in I. congruence.
    + intros H. destruct (find (is_seen seen) (rivals o)) as [b|] eqn:F; auto. apply find_some in F as [R S]. apply rivals_iff in R. apply is_seen_iff in S.
      assert (existsb (conflicts o) seen = true) by (apply existsb_exists; eauto). congruence.
  - intros b F. apply find_some in F as [R S]. split; [apply is_seen_iff; auto|apply rivals_iff; auto].
Qed.

Section WithEnv.
Context {E : Env} (repr : pyval -> pystr).

(** * The two models agree *)
Lemma same_classify : forall ws, silent (says_classify ws) = match classify ws with Some l => Parsed l | None => Refused end.
Proof.
  induction ws as [|w ws IH]; [reflexivity|]. cbn [says_classify classify]. destruct (str_eqb w (lit "--")); [reflexivity|]. destruct (parse_optional w); [|reflexivity].
  rewrite silent_bind, IH. destruct (classify ws); reflexivity.
Qed.
Lemma same_take : forall o args st, silent (says_take_action repr o args st) = take_action o args st.
Proof.
  intros o args [p seen]. unfold says_take_action, take_action. rewrite silent_bind.
  assert (G : silent (says_get_values repr o args) = get_values o args).
  { unfold says_get_values, get_values. cbv zeta. destruct (nargs o); try reflexivity. destruct (remove_dashes args) as [|v [|? ?]]; try reflexivity. destruct o; try reflexivity. destruct (str_in v log_levels); reflexivity. }
  rewrite G. apply obind_ext. intros vs. destruct (find_seen seen o) as [FN FS]. destruct (find (is_seen seen) (rivals o)) as [b|] eqn:F.
  - destruct (FS b eq_refl) as [I Q]. assert (X : existsb (conflicts o) seen = true) by (apply existsb_exists; eauto). rewrite X. reflexivity.
  - rewrite (proj1 FN eq_refl). destruct o; reflexivity.
Qed.
Lemma same_takes : forall acts st, silent (says_take_actions repr acts st) = take_actions acts st.
Proof.
  induction acts as [|[o args] acts IH]; intros st; [reflexivity|]. cbn [says_take_actions take_actions]. rewrite silent_bind, same_take. apply obind_ext. exact IH.
Qed.
Lemma same_from : forall o r, silent (says_from_words o r) = from_words o r.
Proof.
  intros o r. unfold says_from_words, from_words. destruct (nargs o); [reflexivity| |].
  - destruct r as [|[w [| |? ? ?]] r]; reflexivity.
  - destruct (span_args r) as [[|a l] b]; reflexivity.
Qed.
Lemma same_unbundle : forall e o r, silent (says_unbundle repr o e r) = unbundle o e r.
Proof.
  induction e as [|c e IH]; intros o r; cbn [says_unbundle unbundle]; destruct (nargs o); try reflexivity. destruct (find_option [45; c]) as [o'|]; [|reflexivity].
  rewrite silent_bind. destruct e as [|d e].
  - rewrite silent_bind, same_from. destruct (from_words o' r) as [[args r1]| | |]; reflexivity.
  - rewrite IH. destruct (unbundle o' (d :: e) r) as [[l r1]| | |]; reflexivity.
Qed.
Lemma same_consume : forall o n e r, silent (says_consume_optional repr o n e r) = consume_optional o n e r.
Proof.
  intros o n e r. unfold says_consume_optional, consume_optional. destruct e as [e|].
  - destruct (nargs o); try reflexivity. destruct n as [|a [|b n]]; try apply same_unbundle. destruct b as [|q|q]; try apply same_unbundle. repeat (destruct q as [q|q|]; try apply same_unbundle). reflexivity.
  - rewrite silent_bind, same_from. destruct (from_words o r) as [[args r1]| | |]; reflexivity.
Qed.
Lemma same_loop : forall f l ex st, obind (silent (says_loop repr f l ex st)) (fun x => Parsed (fst x, nonempty (snd x))) = loop f l (nonempty ex) st.
Proof.
  induction f as [|f IH]; intros l ex st; [reflexivity|]. destruct l as [|[w m] l]; [reflexivity|].
  assert (NE : nonempty (ex ++ [w]) = true) by (destruct ex; reflexivity).
  destruct m as [| |[o|] n e]; cbn [says_loop loop]; try (rewrite IH, NE; reflexivity).
  rewrite silent_bind, same_consume. destruct (consume_optional o n e l) as [[acts r']| | |]; try reflexivity. cbn [obind]. rewrite silent_bind, same_takes.
  destruct (take_actions acts st) as [st'| | |]; try reflexivity. cbn [obind]. apply IH.
Qed.
Lemma same_parse : forall ws, silent (parse_says repr ws) = parse_args ws.
Proof.
  intros ws. unfold parse_says, parse_args. rewrite silent_bind, same_classify. destruct (classify ws) as [l|]; [|reflexivity]. cbn [obind].
  rewrite silent_bind. pose proof (same_loop (length l) l [] (defaults, [])) as L. cbn [nonempty] in L. rewrite <- L.
  destruct (silent _) as [[p [|x ex]]| | |]; reflexivity.
Qed.

(** * Settings *)
Fixpoint says_sets (l : list setting) (st : parsed * list opt) : said (parsed * list opt) :=
  match l with
  | [] => Takes st
  | (o, vs) :: r =>
      if bad_level (o, vs) then Complains (argument_error o (choice_text repr (match vs with v :: _ => v | [] => [] end)))
      else match find (is_seen (snd st)) (rivals o) with
           | Some b => Complains (argument_error o (lit "not allowed with argument " ++ action_name b))
           | None => match o with O_help => Shows | _ => says_sets r (store o vs (fst st), o :: snd st) end
           end
  end.
Lemma says_take_sets : forall acts l, valued acts l -> forall st, says_take_actions repr acts st = says_sets l st.
Proof.
  intros acts l V. induction V as [|[o args] [o' vs] acts l (Q1 & Q2 & Q3) V IH]; intros [p seen]; [reflexivity|]. cbn [fst snd] in *. subst o' vs.
  cbn [says_take_actions says_sets snd fst]. unfold says_take_action. unfold says_get_values. cbv zeta.
  destruct (nargs o) eqn:A.
  - destruct o; try discriminate; cbn [bad_level sbind]; (destruct (find (is_seen seen) _); [reflexivity|]); cbn [sbind]; auto.
  - destruct (Q3 eq_refl) as [v ->]. cbv iota beta. destruct o; try discriminate; cbn [bad_level sbind]; try ((destruct (find (is_seen seen) _); [reflexivity|]); cbn [sbind]; auto; fail).
    destruct (str_in v log_levels); cbn [negb sbind]; [|reflexivity]. destruct (find (is_seen seen) _); [reflexivity|]. cbn [sbind]. auto.
  - destruct o; try discriminate; cbn [bad_level sbind]; (destruct (find (is_seen seen) _); [reflexivity|]); cbn [sbind]; auto.
Qed.
Lemma says_sets_app : forall l l' st, says_sets (l ++ l') st = sbind (says_sets l st) (says_sets l').
Proof.
  induction l as [|[o vs] l IH]; intros l' st; [reflexivity|]. cbn [app says_sets]. destruct (bad_level (o, vs)); [reflexivity|]. destruct (find _ _); [reflexivity|]. destruct o; auto.
Qed.
Lemma same_sets : forall l st, silent (says_sets l st) = sets l st.
Proof.
  induction l as [|[o vs] l IH]; intros st; [reflexivity|]. cbn [says_sets sets]. destruct (bad_level (o, vs)); [reflexivity|]. destruct (find_seen (snd st) o) as [FN FS].
  destruct (find (is_seen (snd st)) (rivals o)) as [b|] eqn:F.
  - destruct (FS b eq_refl) as [I Q]. assert (X : existsb (conflicts o) (snd st) = true) by (apply existsb_exists; eauto). rewrite X. reflexivity.
  - rewrite (proj1 FN eq_refl). destruct o; auto.
Qed.
Lemma says_sets_run : forall l, shaped l -> go_together l -> exists p seen, says_sets l (defaults, []) = Takes (p, seen) /\ meaning l p /\ forall o, In o seen <-> uses l o.
Proof.
  intros l SH G. destruct (sets_run l SH G) as (p & seen & S & M). exists p, seen. split; [apply silent_takes; rewrite same_sets; exact S|]. split; auto. exact (proj2 (sets_iff l SH) p seen S).
Qed.
Lemma says_sets_went : forall l st, shaped l -> says_sets l (defaults, []) = Takes st -> go_together l.
Proof.
  intros l [p seen] SH H. assert (S : sets l (defaults, []) = Parsed (p, seen)) by (rewrite <- same_sets, H; reflexivity). apply (proj1 (sets_iff l SH) p). eauto.
Qed.
Lemma choice_says : forall v, choice_text repr v = lit "invalid choice: " ++ repr (PStr v) ++ lit " (choose from " ++ repr (PStr (lit "debug")) ++ lit ", " ++
      repr (PStr (lit "info")) ++ lit ", " ++ repr (PStr (lit "warning")) ++ lit ", " ++ repr (PStr (lit "error")) ++ lit ")".
Proof. intros v. unfold choice_text, log_levels. cbn [map join]. rewrite <- !app_assoc. reflexivity. Qed.
Lemma one_fault : forall a o vs seen, (single o -> exists v, vs = [v]) -> go_together a -> (forall x, In x seen <-> uses a x) -> forall t,
  (bad_level (o, vs) = true /\ t = argument_error o (choice_text repr (match vs with v :: _ => v | [] => [] end))) \/
  (bad_level (o, vs) = false /\ exists b, find (is_seen seen) (rivals o) = Some b /\ t = argument_error o (lit "not allowed with argument " ++ action_name b)) <->
  fault repr a (o, vs) t.
Proof.
  intros a o vs seen SH G U t. split.
  - intros [[B ->]|(B & b & F & ->)].
    + destruct o; try discriminate. destruct vs as [|v [|? ?]]; try discriminate. cbn [bad_level] in B. apply negb_true_iff in B. rewrite about_error.
      rewrite choice_says. apply f_level. intros I. assert (str_in v log_levels = true) by (apply str_in_In; exact I). congruence.
    + apply (proj2 (find_seen seen o)) in F as [I Q]. rewrite about_error, called_name. apply conflicts_iff in Q as (N & K). apply f_second; [apply U; auto|congruence|tauto].
  - intros F. inversion F as [v NI Q1 Q2|o1 vs1 o' Uo N K Q1 Q2]; subst.
    + left. split; [|rewrite about_error, choice_says; reflexivity]. cbn [bad_level]. apply negb_true_iff. destruct (str_in v log_levels) eqn:Q; auto. elim NI. apply str_in_In in Q. exact Q.
    + right. assert (NL : bad_level (o, vs) = false).
      { destruct o; try reflexivity. exfalso. destruct K as [[_ [K|[K|[K|K]]]]|[_ [K|K]]]; discriminate. }
      split; auto. destruct (find_seen seen o) as [FN FS]. destruct (find (is_seen seen) (rivals o)) as [b|] eqn:Fi.
      * exists b. split; auto. destruct (FS b eq_refl) as [I Q]. apply U in I. apply conflicts_iff in Q as (N' & K'). rewrite about_error, called_name.
        assert (X : b = o'); [|subst; reflexivity]. destruct G as (_ & G1 & G2 & _).
        assert (D : forall x, key_source x -> data_source x -> False) by (intros x [->|[->|[->| ->]]] [Q|Q]; discriminate).
        destruct K as [[K1 K2]|[K1 K2]], K' as [[K3 K4]|[K3 K4]]; auto; exfalso; eauto.
      * exfalso. pose proof (proj1 FN eq_refl) as X. assert (Y : existsb (conflicts o) seen = true) by (apply existsb_exists; exists o'; split; [apply U; auto|apply conflicts_iff; split; [congruence|tauto]]). congruence.
Qed.
Lemma fault_help : forall a vs t, ~ fault repr a (O_help, vs) t.
Proof. intros a vs t F. inversion F as [|? ? ? _ _ K]; subst. destruct K as [[_ [K|[K|[K|K]]]]|[_ [K|K]]]; discriminate. Qed.
Lemma says_sets_one : forall a o vs p seen, (single o -> exists v, vs = [v]) -> go_together a -> (forall x, In x seen <-> uses a x) -> forall t,
  says_sets [(o, vs)] (p, seen) = Complains t <-> fault repr a (o, vs) t.
Proof.
  intros a o vs p seen SH G U t. rewrite <- (one_fault a o vs seen SH G U t). cbn [says_sets fst snd]. destruct (bad_level (o, vs)) eqn:B.
  - split; [intros H; injection H as <-; auto|]. intros [[_ ->]|[X _]]; [reflexivity|discriminate].
  - destruct (find (is_seen seen) (rivals o)) as [b|].
    + split; [intros H; injection H as <-; right; eauto|]. intros [[X _]|(_ & b' & Q & ->)]; [discriminate|]. injection Q as <-. reflexivity.
    + split; [destruct o; discriminate|]. intros [[X _]|(_ & b' & Q & _)]; discriminate.
Qed.
Lemma says_sets_iff : forall l t, shaped l -> (says_sets l (defaults, []) = Complains t <-> first_fault repr l t).
Proof.
  intros l t SH. split.
  - revert t. induction l as [|[o vs] l IH] using rev_ind; intros t H; [discriminate|]. apply Forall_app in SH as [SH SO]. apply Forall_inv in SO. cbn [fst snd] in SO. rewrite says_sets_app in H.
    destruct (says_sets l (defaults, [])) as [[p seen]|t'| |e] eqn:S; cbn [sbind] in H; try discriminate.
    + pose proof (says_sets_went l _ SH S) as G. destruct (says_sets_run l SH G) as (p' & seen' & S' & _ & U). rewrite S in S'. injection S' as <- <-.
      exists l, (o, vs), []. split; auto. split; auto. apply (says_sets_one l o vs p seen); auto.
    + injection H as ->. destruct (IH SH t eq_refl) as (a & s & b & -> & G & F). exists a, s, (b ++ [(o, vs)]). rewrite <- app_assoc. auto.
  - intros (a & [o vs] & b & -> & G & F). apply Forall_app in SH as [SA SB]. apply Forall_inv in SB. cbn [fst snd] in SB. destruct (says_sets_run a SA G) as (p & seen & S & _ & U).
    rewrite says_sets_app, S. cbn [sbind]. change ((o, vs) :: b) with ([(o, vs)] ++ b). rewrite says_sets_app. apply (says_sets_one a o vs p seen SB G U) in F. rewrite F. reflexivity.
Qed.
End WithEnv.
