(** json.dumps(v, indent=2) lays values out as JsonGrammar says. *)
From Coq Require Import String Floats.SpecFloat Lia.
From Verif Require Import PyBase Env PyNum Spec EnvOk NumSpec Json JsonGrammar.
From Verif Require Import NumLemmas HexProofs AmountProofs JsonTextProofs JsonNumProofs JsonLoadsProofs.
Open Scope Z_scope.

(** * Characters *)
Lemma digit_lower : forall d, 0 <= d <= 15 -> ~ 65 <= digit_char d <= 70.
Proof. intros d D. unfold digit_char. destruct (d <? 10) eqn:Q; zb; lia. Qed.
Lemma hex4_text_lower : forall n, 0 <= n < 65536 -> lower_four (hex4_text n) n.
Proof.
  intros n N. split; [apply hex4_text_four; auto|]. unfold hex4_text. cbn [map]. repeat constructor; apply digit_lower; match goal with |- 0 <= ?x mod 16 <= 15 => pose proof (Z.mod_pos_bound x 16 ltac:(lia)); lia end.
Qed.
Lemma escape_chars : forall e c, escape e c -> c = 34 \/ c = 92 \/ c = 47 \/ c = 8 \/ c = 12 \/ c = 10 \/ c = 13 \/ c = 9.
Proof. intros e c H. destruct H; auto 10. Qed.
Lemma shown_char : forall c, character c -> shown c (escape_char c).
Proof.
  intros c CH. unfold character in CH. unfold escape_char.
  destruct (c =? 34) eqn:Q1; [zb; subst; apply sh_escape; [constructor|lia]|]. destruct (c =? 92) eqn:Q2; [zb; subst; apply sh_escape; [constructor|lia]|].
  destruct (c =? 10) eqn:Q3; [zb; subst; apply sh_escape; [constructor|lia]|]. destruct (c =? 13) eqn:Q4; [zb; subst; apply sh_escape; [constructor|lia]|].
  destruct (c =? 9) eqn:Q5; [zb; subst; apply sh_escape; [constructor|lia]|]. destruct (c =? 12) eqn:Q6; [zb; subst; apply sh_escape; [constructor|lia]|].
  destruct (c =? 8) eqn:Q7; [zb; subst; apply sh_escape; [constructor|lia]|]. zb. destruct ((32 <=? c) && (c <=? 126)) eqn:Q8; [zb; apply sh_self; auto|].
  assert (NR : ~ 32 <= c <= 126) by (apply andb_false_iff in Q8 as [Q8|Q8]; zb; lia).
  destruct (c <? 65536) eqn:Q9; zb; [apply sh_unit; auto; [lia| |apply hex4_text_lower; lia]; intros e H; apply escape_chars in H; lia|].
  pose proof (Z.div_mod (c - 65536) 1024 ltac:(lia)) as DM. pose proof (Z.mod_pos_bound (c - 65536) 1024 ltac:(lia)) as MB. assert (0 <= (c - 65536) / 1024 < 1024) by (split; [apply Z.div_pos; lia|apply Z.div_lt_upper_bound; lia]).
  unfold u_escape. rewrite <- app_assoc. apply (sh_pair c (55296 + (c - 65536) / 1024) (56320 + (c - 65536) mod 1024)); try lia; unfold high, low; try lia; apply hex4_text_lower; lia.
Qed.
Lemma string_shown : forall s, Forall character s -> text_shown s (dump_string s).
Proof.
  intros s F. exists (map escape_char s). split; [|unfold dump_string; rewrite flat_map_concat_map; reflexivity].
  induction F as [|c s C F IH]; constructor; auto using shown_char.
Qed.
Lemma hex_value_printable : forall c d, hex_value c d -> 48 <= c <= 102.
Proof. intros c d H. destruct H; lia. Qed.
Lemma four_printable : forall h n, four h n -> Forall (fun c => 32 <= c <= 126) h.
Proof. intros h n (ds & F & _). induction F as [|c d s l H F IH]; constructor; auto. apply hex_value_printable in H. lia. Qed.
Lemma escape_printable : forall e c, escape e c -> 32 <= e <= 126.
Proof. intros e c H. destruct H; lia. Qed.
Lemma shown_printable : forall c t, shown c t -> Forall (fun c => 32 <= c <= 126) t.
Proof.
  intros c t [c' H|e c' H|c' h H _ _ [F _]|c' n m h l H _ _ _ [F _] [F' _]].
  - repeat constructor; lia.
  - apply escape_printable in H. repeat constructor; lia.
  - apply four_printable in F. cbn [app]. constructor; [lia|]. constructor; [lia|auto].
  - apply four_printable in F. apply four_printable in F'. cbn [app]. constructor; [lia|]. constructor; [lia|]. apply Forall_app. split; auto. constructor; [lia|]. constructor; [lia|auto].
Qed.
Lemma text_printable : forall s t, text_shown s t -> Forall (fun c => 32 <= c <= 126) t.
Proof.
  intros s t (parts & F & ->). cbn [app]. constructor; [lia|]. apply Forall_app. split; [|repeat constructor; lia]. induction F as [|c p s l H F IH]; [constructor|]. cbn [concat]. apply Forall_app. split; auto. eapply shown_printable; eauto.
Qed.

(** A character is shown in one way. *)
Lemma hex_value_range : forall c d, hex_value c d -> 0 <= d <= 15.
Proof. intros c d H. destruct H; lia. Qed.
Lemma hex_value_lower : forall c c' d, hex_value c d -> hex_value c' d -> ~ 65 <= c <= 70 -> ~ 65 <= c' <= 70 -> c = c'.
Proof. intros c c' d H H' N N'. inversion H; inversion H'; lia. Qed.
Lemma lower_four_fun : forall h h' n, lower_four h n -> lower_four h' n -> h = h'.
Proof.
  intros h h' n ((ds & F & L & V) & N) ((ds' & F' & L' & V') & N'). assert (R : forall s l, Forall2 hex_value s l -> digits_in 16 l) by (intros s l H; induction H; constructor; auto; apply hex_value_range in H; lia).
  assert (ds = ds') by (apply (val_inj_len 16); eauto; [lia|congruence|congruence]). subst ds'. clear - F F' N N'. revert h' F' N'. induction F as [|c d s l H F IH]; intros h' F' N'; inversion F' as [|c' d' s' l' H' F'']; subst; [reflexivity|].
  inversion N; inversion N'; subst. f_equal; auto. eapply hex_value_lower; eauto.
Qed.
Lemma escape_fun : forall e e' c, escape e c -> escape e' c -> e = e'.
Proof. intros e e' c H H'. inversion H; subst; inversion H'; reflexivity. Qed.
Lemma shown_fun : forall c t t', shown c t -> shown c t' -> t = t'.
Proof.
  intros c t t' H H'. destruct H as [c H1 H2 H3|e c H1 H2|c h H1 H2 H3 H4|c n m h l H1 H2 H3 H4 H5 H6]; inversion H' as [c' K1 K2 K3|e' c' K1 K2|c' h' K1 K2 K3 K4|c' n' m' h' l' K1 K2 K3 K4 K5 K6]; subst; auto; try lia; try (apply escape_chars in H1; lia); try (apply escape_chars in K1; lia).
  - f_equal. f_equal. eapply escape_fun; eauto.
  - elim (K3 _ H1).
  - elim (H3 _ K1).
  - f_equal. eapply lower_four_fun; eauto.
  - unfold high, low in *. assert (n = n') by lia. assert (m = m') by lia. subst n' m'. rewrite (lower_four_fun h h' n), (lower_four_fun l l' m); auto.
Qed.
Lemma text_shown_fun : forall s t t', text_shown s t -> text_shown s t' -> t = t'.
Proof.
  intros s t t' (ps & F & ->) (ps' & F' & ->). f_equal. f_equal. f_equal. revert ps' F'. induction F as [|c p s ps H F IH]; intros ps' F'; inversion F' as [|c' p' s' q H' F'']; subst; [reflexivity|]. f_equal; auto. eapply shown_fun; eauto.
Qed.
Lemma whole_fun : forall s ds s' ds', whole s ds -> whole s' ds' -> val 10 ds = val 10 ds' -> s = s'.
Proof.
  intros s ds s' ds' (-> & D & C) (-> & D' & C') V. f_equal. destruct C as [->|[N L]], C' as [->|[N' L']]; auto.
  - destruct ds' as [|a r]; [congruence|]. apply no_lead0_cons in L'. pose proof (val_lead_lower 10 a r ltac:(lia) D' L') as X. assert (0 < 10 ^ Z.of_nat (length r)) by (apply Z.pow_pos_nonneg; lia). unfold val at 1 in V. cbn [fold_left] in V. lia.
  - destruct ds as [|a r]; [congruence|]. apply no_lead0_cons in L. pose proof (val_lead_lower 10 a r ltac:(lia) D L) as X. assert (0 < 10 ^ Z.of_nat (length r)) by (apply Z.pow_pos_nonneg; lia). unfold val at 2 in V. cbn [fold_left] in V. lia.
  - apply (val_inj_lead 10); auto; lia.
Qed.
Lemma val_zero_text : forall s ds, whole s ds -> val 10 ds = 0 -> s = [48].
Proof. intros s ds W V. apply (whole_fun s ds [48] [0]); auto. split; [reflexivity|]. split; [constructor; [lia|constructor]|auto]. Qed.
Lemma int_text_fun : forall t t' z, number t (PInt z) -> number t' (PInt z) -> t <> lit "-0" -> t' <> lit "-0" -> t = t'.
Proof.
  intros t t' z N N' X X'. inversion N as [sg neg i ip M W Q1 Q2|]; subst. inversion N' as [sg' neg' i' ip' M' W' Q1 Q2|]; subst.
  assert (P : 0 <= val 10 ip /\ 0 <= val 10 ip') by (destruct W as (_ & D & _), W' as (_ & D' & _); split; apply (val_bounds 10); auto; lia).
  assert (Z0 : forall s n i ip, minus_text s n -> whole i ip -> val 10 ip = 0 -> s ++ i <> lit "-0" -> n = false).
  { clear. intros s n i ip M W V X. destruct M; auto. rewrite (val_zero_text _ _ W V) in X. elim X. reflexivity. }
  assert (neg = neg' /\ val 10 ip = val 10 ip').
  { destruct (Z.eq_dec (val 10 ip) 0) as [Z1|Z1].
    - assert (Z2 : val 10 ip' = 0) by (unfold signed in Q2; destruct neg, neg'; lia). rewrite (Z0 _ _ _ _ M W Z1 X), (Z0 _ _ _ _ M' W' Z2 X'). split; congruence.
    - unfold signed in Q2. destruct neg, neg'; split; auto; try lia. }
  destruct H as [-> V]. assert (sg = sg') by (inversion M; inversion M'; subst; auto; discriminate). subst sg'. f_equal. eapply whole_fun; eauto.
Qed.

(** * Lines *)
Fixpoint jl (sep : pystr) (ls : list pystr) : pystr := match ls with [] => [] | [l] => l | l :: r => l ++ sep ++ jl sep r end.
Lemma jl_text : forall ls, lines_text ls = jl [10] ls.
Proof. induction ls as [|l [|l' r] IH]; try reflexivity. cbn [lines_text jl] in *. rewrite IH. reflexivity. Qed.
Lemma jl_cons : forall sep l r, r <> [] -> jl sep (l :: r) = l ++ sep ++ jl sep r.
Proof. intros sep l [|x r] H; [congruence|reflexivity]. Qed.
Lemma jl_app : forall sep a b, a <> [] -> b <> [] -> jl sep (a ++ b) = jl sep a ++ sep ++ jl sep b.
Proof.
  intros sep a b. induction a as [|l a IH]; intros NA NB; [congruence|]. destruct a as [|l' a]; [cbn [app]; rewrite jl_cons by auto; reflexivity|].
  cbn [app]. rewrite jl_cons by discriminate. rewrite (jl_cons sep l (l' :: a)) by discriminate. change (l' :: a ++ b) with ((l' :: a) ++ b). rewrite IH by (auto; discriminate). rewrite <- !app_assoc. reflexivity.
Qed.
Lemma ending_ne : forall b x, b <> [] -> ending b x <> [].
Proof. intros [|l [|l' b]] x H; [congruence|discriminate|discriminate]. Qed.
Lemma jl_ending : forall sep b x, b <> [] -> jl sep (ending b x) = jl sep b ++ x.
Proof.
  intros sep b x. induction b as [|l b IH]; intros H; [congruence|]. destruct b as [|l' b]; [reflexivity|]. change (ending (l :: l' :: b) x) with (l :: ending (l' :: b) x).
  rewrite jl_cons by (apply ending_ne; discriminate). rewrite (jl_cons sep l (l' :: b)) by discriminate. rewrite IH by discriminate. rewrite <- !app_assoc. reflexivity.
Qed.
Lemma jl_before : forall sep x b, b <> [] -> jl sep (starting x b) = x ++ jl sep b.
Proof. intros sep x [|l [|l' b]] H; [congruence|reflexivity|]. cbn [starting]. rewrite !jl_cons by discriminate. rewrite <- app_assoc. reflexivity. Qed.
Lemma jl_indented : forall sep ls, ls <> [] -> jl sep (indented ls) = lit "  " ++ jl (sep ++ lit "  ") ls.
Proof.
  intros sep ls. induction ls as [|l ls IH]; intros H; [congruence|]. destruct ls as [|l' ls]; [reflexivity|]. change (indented (l :: l' :: ls)) with ((lit "  " ++ l) :: indented (l' :: ls)).
  rewrite jl_cons by discriminate. rewrite IH by discriminate. rewrite (jl_cons _ l (l' :: ls)) by discriminate. rewrite <- !app_assoc. reflexivity.
Qed.
Lemma listed_ne : forall bs, bs <> [] -> Forall (fun b : list pystr => b <> []) bs -> listed bs <> [].
Proof. intros [|b [|b' bs]] H F; [congruence|inversion F; auto|]. cbn [listed]. intros Q. apply app_eq_nil in Q as [Q _]. inversion F; subst. eapply ending_ne; eauto. Qed.
Lemma jl_listed : forall sep bs, Forall (fun b : list pystr => b <> []) bs -> jl sep (listed bs) = join (lit "," ++ sep) (map (jl sep) bs).
Proof.
  intros sep bs F. induction F as [|b bs NB F IH]; [reflexivity|]. destruct bs as [|b' bs]; [reflexivity|]. change (listed (b :: b' :: bs)) with (ending b (lit ",") ++ listed (b' :: bs)).
  rewrite jl_app by (try apply ending_ne; try apply listed_ne; auto; discriminate). rewrite jl_ending, IH by auto. cbn [map]. change (join (lit "," ++ sep) (jl sep b :: jl sep b' :: map (jl sep) bs)) with (jl sep b ++ (lit "," ++ sep) ++ join (lit "," ++ sep) (map (jl sep) (b' :: bs))).
  rewrite <- !app_assoc. reflexivity.
Qed.
Lemma new_line_S : forall n, new_line n ++ lit "  " = new_line (S n).
Proof. intros n. unfold new_line. cbn [app]. f_equal. change (lit "  ") with (repeat 32 2). rewrite <- repeat_app. f_equal. lia. Qed.
Lemma jl_boxed : forall o c bs level, bs <> [] -> Forall (fun b : list pystr => b <> []) bs ->
  jl (new_line level) (boxed o c bs) = lit o ++ new_line (S level) ++ join (lit "," ++ new_line (S level)) (map (jl (new_line (S level))) bs) ++ new_line level ++ lit c.
Proof.
  intros o c bs level NE F. unfold boxed. destruct bs as [|b0 bs0] eqn:Q; [congruence|]. rewrite <- Q in *. clear Q b0 bs0. pose proof (listed_ne bs NE F) as NL.
  assert (NI : indented (listed bs) <> []) by (destruct (listed bs); [congruence|discriminate]).
  cbn [app]. rewrite jl_cons by (intros Q; apply app_eq_nil in Q as [Q _]; auto). rewrite jl_app by (auto; discriminate). rewrite jl_indented by auto. rewrite new_line_S, jl_listed by auto. cbn [jl].
  rewrite <- (new_line_S level). rewrite <- !app_assoc. reflexivity.
Qed.

(** * Values *)
Section Layout.
Context (float_repr : spec_float -> pystr).
(** The lines, by recursion. *)
Fixpoint lines (v : pyval) : list pystr :=
  match v with
  | PList l => boxed "[" "]" (map lines l)
  | PDict d => boxed "{" "}" (map (fun e => starting (dump_string (fst e) ++ lit ": ") (lines (snd e))) d)
  | PNone => [lit "null"] | PBool true => [lit "true"] | PBool false => [lit "false"] | PInt z => [int_str z] | PStr s => [dump_string s]
  | PFloat f => [dump float_repr 0 (PFloat f)]
  end.
Lemma boxed_ne : forall o c bs, boxed o c bs <> [].
Proof. intros o c [|b bs]; discriminate. Qed.
Lemma lines_ne : forall v, lines v <> [].
Proof. intros [|[]|z|f|s|l|d]; try discriminate; apply boxed_ne. Qed.
Lemma before_ne : forall x b, b <> [] -> starting x b <> [].
Proof. intros x [|l b] H; [congruence|discriminate]. Qed.
Lemma dump_lines : forall v level, dump float_repr level v = jl (new_line level) (lines v).
Proof.
  fix IH 1. intros v level. destruct v as [|b|z|f|s|l|d]; try reflexivity.
  - destruct b; reflexivity.
  - assert (G : map (dump float_repr (S level)) l = map (jl (new_line (S level))) (map lines l)).
    { induction l as [|v l IHl]; [reflexivity|]. cbn [map]. rewrite <- IHl, <- IH. reflexivity. }
    destruct l as [|v l]; [reflexivity|]. cbn [lines]. rewrite jl_boxed; [|discriminate|apply Forall_forall; intros b I; apply in_map_iff in I as (x & <- & _); apply lines_ne].
    rewrite <- G. reflexivity.
  - assert (G : map (fun e => dump_string (fst e) ++ lit ": " ++ dump float_repr (S level) (snd e)) d = map (jl (new_line (S level))) (map (fun e => starting (dump_string (fst e) ++ lit ": ") (lines (snd e))) d)).
    { induction d as [|[k v] d IHd]; [reflexivity|]. cbn [map fst snd]. rewrite <- IHd. rewrite jl_before by apply lines_ne. rewrite <- IH. rewrite <- app_assoc. reflexivity. }
    destruct d as [|e d]; [reflexivity|]. cbn [lines]. rewrite jl_boxed; [|discriminate|apply Forall_forall; intros b I; apply in_map_iff in I as (x & <- & _); apply before_ne; apply lines_ne].
    rewrite <- G. reflexivity.
Qed.
Lemma int_text : forall z, number (int_str z) (PInt z) /\ int_str z <> lit "-0".
Proof.
  intros z. split; [apply int_number|]. unfold int_str. destruct (z <? 0) eqn:Q; zb.
  - destruct (nat_text10 (- z) ltac:(lia)) as (ds & -> & D & NE & V & L). change (lit "-0") with (45 :: [48]). intros X. apply (f_equal (@tl Z)) in X. cbn [tl] in X. destruct ds as [|a ds]; [congruence|].
    change (text10 (a :: ds)) with ((48 + a) :: text10 ds) in X. pose proof (f_equal (@hd Z 0) X) as X1. apply (f_equal (@tl Z)) in X. cbn [tl hd] in X, X1. assert (ds = []) by (destruct ds; [reflexivity|discriminate X]). subst ds. unfold val in V. cbn [fold_left] in V. lia.
  - destruct (nat_text10 z ltac:(lia)) as (ds & -> & D & NE & V & L). change (lit "-0") with (45 :: [48]). intros X. destruct ds as [|a ds]; [congruence|]. change (text10 (a :: ds)) with ((48 + a) :: text10 ds) in X.
    apply (f_equal (@hd Z 0)) in X. cbn [hd] in X. inversion D as [|? ? B _]; subst. lia.
Qed.
Lemma lines_layout : forall v, plain_value v -> layout v (lines v).
Proof.
  fix IH 1. intros v P. destruct v as [|b|z|f|s|l|d].
  - constructor.
  - destruct b; constructor.
  - destruct (int_text z). constructor; auto.
  - inversion P.
  - apply l_str. inversion P as [| | |? T| |]; subst. apply string_shown. apply T.
  - assert (F : Forall plain_value l) by (inversion P; auto). clear P. apply l_list. induction l as [|v l IHl]; [constructor|]. inversion F as [|? ? PV F']; subst. constructor; [apply IH; exact PV|apply IHl; exact F'].
  - assert (T : Forall (fun e => plain_text (fst e)) d) by (inversion P; auto). assert (F : Forall (fun e => plain_value (snd e)) d) by (inversion P; auto). clear P. apply l_dict.
    induction d as [|[k v] d IHd]; [constructor|]. inversion F as [|? ? PV F']; subst. inversion T as [|? ? [PT _] T']; subst. cbn [map fst snd]. constructor; [apply string_shown; exact PT|apply IH; exact PV|apply IHd; [exact T'|exact F']].
Qed.
Lemma dumps_layout : forall v, plain_value v -> exists ls, layout v ls /\ dumps float_repr v = lines_text ls.
Proof. intros v P. exists (lines v). split; [apply lines_layout; auto|]. rewrite jl_text. apply (dump_lines v 0). Qed.

Scheme layout_mind := Minimality for layout Sort Prop
  with layouts_mind := Minimality for layouts Sort Prop
  with entries_mind := Minimality for entries Sort Prop.
Combined Scheme layout_all from layout_mind, layouts_mind, entries_mind.
Lemma layout_fun : (forall v ls, layout v ls -> forall ls', layout v ls' -> ls = ls') /\ (forall l bs, layouts l bs -> forall bs', layouts l bs' -> bs = bs') /\ (forall d bs, entries d bs -> forall bs', entries d bs' -> bs = bs').
Proof.
  apply layout_all.
  1-3: intros ls' H; inversion H; reflexivity.
  - intros z t N X ls' H. inversion H as [| | |z' t' N' X'| | |]; subst. f_equal. eapply int_text_fun; eauto.
  - intros s t T ls' H. inversion H as [| | | |s' t' T'| |]; subst. f_equal. eapply text_shown_fun; eauto.
  - intros l bs H IH ls' H'. inversion H' as [| | | | |l' bs' K|]; subst. f_equal. auto.
  - intros d bs H IH ls' H'. inversion H' as [| | | | | |l' bs' K]; subst. f_equal. auto.
  - intros bs' H. inversion H. reflexivity.
  - intros v b l bs H IH H2 IH2 bs' H'. inversion H'; subst. f_equal; auto.
  - intros bs' H. inversion H. reflexivity.
  - intros k t v b d bs T H IH H2 IH2 bs' H'. inversion H' as [|k' t' v' b' d' bs'' T' K K2]; subst. f_equal; auto. rewrite (text_shown_fun k t t'), (IH b'); auto.
Qed.
(** Only printable ASCII characters within a line. *)
Lemma ending_forall : forall (P : pystr -> Prop) b x, (forall l, P l -> P (l ++ x)) -> Forall P b -> Forall P (ending b x).
Proof. intros P b x H F. induction F as [|l b Pl F IH]; [constructor|]. destruct b as [|l' b]; [constructor; auto|]. cbn [ending]. constructor; auto. Qed.
Definition printable (l : pystr) : Prop := Forall (fun c => 32 <= c <= 126) l.
Lemma printable_lit : forall s, forallb (fun c => (32 <=? c) && (c <=? 126)) s = true -> printable s.
Proof. intros s H. rewrite forallb_forall in H. apply Forall_forall. intros c I. apply H in I. zb. lia. Qed.
Lemma printable_app : forall a b, printable a -> printable b -> printable (a ++ b).
Proof. intros a b A B. apply Forall_app. auto. Qed.
Lemma listed_forall : forall bs, Forall (Forall printable) bs -> Forall printable (listed bs).
Proof.
  intros bs F. induction F as [|b bs H F IH]; [constructor|]. destruct bs as [|b' bs]; [exact H|]. cbn [listed] in *. apply Forall_app. split; auto. apply ending_forall; auto. intros l L. apply printable_app; auto; apply printable_lit; reflexivity.
Qed.
Lemma boxed_forall : forall o c bs, printable (lit o) -> printable (lit c) -> Forall (Forall printable) bs -> Forall printable (boxed o c bs).
Proof.
  intros o c bs O C F. unfold boxed. destruct bs as [|b bs]; [constructor; [apply printable_app; auto|constructor]|]. apply Forall_app. split; [constructor; auto|]. apply Forall_app. split; [|constructor; auto].
  unfold indented. apply Forall_map. eapply Forall_impl; [|apply listed_forall; exact F]. intros l L. apply printable_app; auto; apply printable_lit; reflexivity.
Qed.
Lemma number_printable : forall z, printable (int_str z).
Proof.
  intros z. unfold int_str. assert (G : forall n, 0 <= n -> printable (nat_text 10 n)).
  { intros n N. destruct (nat_text10 n N) as (ds & -> & D & _). unfold text10. apply Forall_map. eapply Forall_impl; [|exact D]. intros a; cbv beta; lia. }
  destruct (z <? 0) eqn:Q; zb; [constructor; [lia|]|]; apply G; lia.
Qed.
Lemma layout_printable : (forall v ls, layout v ls -> Forall printable ls) /\ (forall l bs, layouts l bs -> Forall (Forall printable) bs) /\ (forall d bs, entries d bs -> Forall (Forall printable) bs).
Proof.
  apply layout_all; try (constructor; fail).
  1-3: constructor; [apply printable_lit; reflexivity|constructor].
  - intros z t N X. constructor; [|constructor]. destruct (int_text z) as [N' X']. rewrite (int_text_fun t (int_str z) z); auto. apply number_printable.
  - intros s t T. constructor; [eapply text_printable; eauto|constructor].
  - intros l bs H IH. apply boxed_forall; auto; apply printable_lit; reflexivity.
  - intros l bs H IH. apply boxed_forall; auto; apply printable_lit; reflexivity.
  - intros. constructor; auto.
  - intros k t v b d bs T H IH H2 IH2. constructor; auto. destruct IH as [|l r L F]; cbn [starting]; constructor; auto. apply printable_app; auto. apply printable_app; [eapply text_printable; eauto|apply printable_lit; reflexivity].
Qed.
End Layout.
