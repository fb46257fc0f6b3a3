(** C94: the text of the error messages of the other validators. *)
From Coq Require Import String Floats.SpecFloat Permutation Lia.
From Verif Require Import PyBase Env PyNum Validate Spec EnvOk ValidSpec Messages MessagesSpec Complaints ComplaintsSpec Demo.
From Verif Require Import NumLemmas HexProofs PrepProofs AmountProofs DesignProofs SignProofs DemoProofs C_Valid C_Messages.
Open Scope Z_scope.

Section WithEnv.
Context {E : Env}.

Lemma int_value_iff : forall v n, int_value v n <-> as_int v = Some n.
Proof. intros v n. split; [intros []; reflexivity|]. destruct v as [|[]|z|f|s|l|d]; try discriminate; intros H; injection H as <-; constructor. Qed.
Lemma no_int_iff : forall v, no_int v <-> as_int v = None.
Proof.
  intros v. unfold no_int. split.
  - intros H. destruct (as_int v) as [n|] eqn:Q; auto. apply int_value_iff in Q. now apply H in Q.
  - intros H n I. apply int_value_iff in I. congruence.
Qed.
Lemma message_fun : forall repr msg value name location kind m m', message repr msg value name location kind m -> message repr msg value name location kind m' -> m = m'.
Proof. intros repr msg value name location kind m m' H H'. apply c72_message in H, H'. congruence. Qed.
Lemma reported_fun : forall repr value name location kind f r r', reported repr value name location kind f r -> reported repr value name location kind f r' -> r = r'.
Proof. intros repr value name location kind f r r' H H'. inversion H; subst; inversion H'; subst; auto; do 2 f_equal; eapply message_fun; eauto. Qed.
Lemma complain_wrong : forall repr e why value name location kind, reported repr value name location kind (Wrong e why) (complain repr e why value name location kind).
Proof. intros. destruct (proj1 (complain_iff repr e why value name location kind _) eq_refl) as (m & -> & M). now constructor. Qed.
Lemma complain_unexpected : forall repr e why value name location kind, reported repr value name location kind (WrongUnexpected e why) (complain repr e why value name location PNone).
Proof. intros. destruct (proj1 (complain_iff repr e why value name location PNone _) eq_refl) as (m & -> & M). now constructor. Qed.
Lemma type_name_iff : forall v t, type_called v t <-> lit t = type_name v.
Proof.
  intros v t. split; [intros []; reflexivity|]. intros H.
  assert (INJ : forall a b : string, lit a = lit b -> a = b).
  { clear. induction a as [|x a IH]; intros [|y b] H; try discriminate; auto. cbn [lit] in H. injection H as H1 H2. rewrite (IH b H2). f_equal.
    apply N2Z.inj in H1. rewrite <- (Ascii.ascii_N_embedding x), <- (Ascii.ascii_N_embedding y). now rewrite H1. }
  destruct v; cbn [type_name] in H; apply INJ in H; subst t; constructor.
Qed.
Lemma type_called_total : forall v, exists t, type_called v t /\ lit t = type_name v.
Proof. intros v. destruct v; eexists; (split; [constructor|reflexivity]). Qed.

(** The shape of the proofs: the code's answer is a report of a finding of the specification, and the specification has one finding. *)
Lemma by_finding : forall (R : finding -> Prop) repr value name location kind says,
  (exists f, R f /\ reported repr value name location kind f says) -> (forall f g, R f -> R g -> f = g) ->
  forall r, says = r <-> exists f, R f /\ reported repr value name location kind f r.
Proof.
  intros R repr value name location kind says (f & RF & RP) U r. split; [intros <-; eauto|]. intros (g & RG & RP'). rewrite (U _ _ RF RG) in RP. eapply reported_fun; eauto.
Qed.
Lemma type_fun : forall v t t', type_called v t -> type_called v t' -> lit t = lit t'.
Proof. intros v t t' H H'. apply type_name_iff in H, H'. congruence. Qed.
Lemma of_type_fun : forall wanted good v f g, of_type wanted good v f -> of_type wanted good v g -> f = g.
Proof. intros wanted good v f g [A|t N T]; intros [B|t' N' T']; try tauto. now rewrite (type_fun _ _ _ T T'). Qed.
Lemma wrong_type_report : forall repr wanted (good : pyval -> Prop) v name location kind says,
  (good v /\ says = None) \/ (~ good v /\ says = complain repr TypeError (wrong_type_msg v wanted) v name location kind) ->
  exists f, of_type wanted good v f /\ reported repr v name location kind f says.
Proof.
  intros repr wanted good v name location kind says [[G ->]|[N ->]].
  - exists Fine. split; [now constructor|constructor].
  - destruct (type_called_total v) as (t & T & L). eexists. split; [apply (wrong_type _ _ _ t N T)|]. rewrite L. apply complain_wrong.
Qed.

(** C94.  The validators of a type: a value of another type raises TypeError, and the message names both types. *)
Lemma c94_types : forall repr v name location kind r,
  (validate_integer_says repr v name location kind = r <-> exists f, of_type "int" (fun v => exists n, int_value v n) v f /\ reported repr v name location kind f r) /\
  (validate_boolean_says repr v name location kind = r <-> exists f, of_type "bool" (fun v => exists b, v = PBool b) v f /\ reported repr v name location kind f r) /\
  (validate_list_says repr v name location kind = r <-> exists f, of_type "list" (fun v => exists l, v = PList l) v f /\ reported repr v name location kind f r) /\
  (validate_dict_says repr v name location kind = r <-> exists f, of_type "dict" (fun v => exists d, v = PDict d) v f /\ reported repr v name location kind f r).
Proof.
  intros repr v name location kind r. split; [|split; [|split]]; apply by_finding; try (apply of_type_fun); apply wrong_type_report.
  - unfold validate_integer_says. destruct (as_int v) as [n|] eqn:Q; [left; split; auto; exists n; now apply int_value_iff|right; split; auto]. intros (n & I). apply int_value_iff in I. congruence.
  - destruct v; cbn [validate_boolean_says]; eauto; right; (split; [intros (? & Q); discriminate|reflexivity]).
  - destruct v; cbn [validate_list_says]; eauto; right; (split; [intros (? & Q); discriminate|reflexivity]).
  - destruct v; cbn [validate_dict_says]; eauto; right; (split; [intros (? & Q); discriminate|reflexivity]).
Qed.
(** C94, naive claim "the message names the type that was expected" refuted for validate_bytes: it says int. *)
Lemma c94_bytes_refuted : forall repr v name location kind r, validate_bytes_says repr v name location kind = r <->
  exists t, type_called v t /\ reported repr v name location kind (Wrong TypeError (lit "which has type '" ++ lit t ++ lit "', not 'int'.")) r.
Proof.
  intros repr v name location kind r. unfold validate_bytes_says. split.
  - intros <-. destruct (type_called_total v) as (t & T & L). exists t. split; auto. rewrite L. apply complain_wrong.
  - intros (t & T & R). apply type_name_iff in T. rewrite T in R. eapply reported_fun; [|exact R]. apply complain_wrong.
Qed.

Lemma positive_fun : forall v f g, positive v f -> positive v g -> f = g.
Proof.
  intros v f g [n I L|n I L|t N T] [n' I' L'|n' I' L'|t' N' T']; try reflexivity; try (elim (N' n); assumption); try (elim (N n'); assumption);
    try (apply int_value_iff in I, I'; assert (n = n') by congruence; lia).
  now rewrite (type_fun _ _ _ T T').
Qed.
Lemma positive_report : forall repr v name location kind, exists f, positive v f /\ reported repr v name location kind f (validate_positive_integer_says repr v name location kind).
Proof.
  intros repr v name location kind. unfold validate_positive_integer_says, validate_integer_says. destruct (as_int v) as [n|] eqn:Q.
  - pose proof (proj2 (int_value_iff v n) Q) as I. destruct (Z.ltb_spec n 1) as [L|L].
    + eexists. split; [apply (positive_small v n I L)|apply complain_wrong].
    + exists Fine. split; [apply (positive_fine v n I L)|constructor].
  - destruct (type_called_total v) as (t & T & L). eexists. split; [apply (positive_type v t); [now apply no_int_iff|exact T]|]. rewrite L.
    destruct (proj1 (complain_iff repr TypeError (wrong_type_msg v "int") v name location kind _) eq_refl) as (m & QM & M). rewrite QM. constructor. exact M.
Qed.
Lemma zero_iff : forall v, py_eq_int v 0 = true <-> equals_zero v.
Proof.
  intros v. unfold equals_zero. split.
  - destruct v as [|[]|z|f|s|l|d]; try discriminate.
    + intros _. left. constructor.
    + intros H. apply Z.eqb_eq in H as ->. left. constructor.
    + intros H. right. pose proof (c54_whole_number (PFloat f)) as W. unfold validate_whole_number in W. rewrite H in W. destruct f; try discriminate. eauto.
  - intros [I|(s & ->)]; [|reflexivity]. inversion I; subst; reflexivity.
Qed.
(** C94.  validate_positive_integer and validate_whole_number. *)
Lemma c94_numbers : forall repr v name location kind r,
  (validate_positive_integer_says repr v name location kind = r <-> exists f, positive v f /\ reported repr v name location kind f r) /\
  (validate_whole_number_says repr v name location kind = r <-> exists f, whole v f /\ reported repr v name location kind f r).
Proof.
  intros repr v name location kind r. split; apply by_finding.
  - apply positive_report.
  - apply positive_fun.
  - unfold validate_whole_number_says. destruct (py_eq_int v 0) eqn:Z0.
    + exists Fine. split; [apply whole_zero; now apply zero_iff|constructor].
    + destruct (positive_report repr v name location kind) as (f & P & R). exists f. split; auto. apply whole_positive; auto. intros X. apply zero_iff in X. congruence.
  - intros f g [X|f' X P] [Y|g' Y P']; try tauto. eapply positive_fun; eauto.
Qed.

Lemma faults_where : forall (bad : Z -> bool) good, (forall c, bad c = true <-> ~ good c) -> forall s l, faults good s l <-> l = indices_where bad s.
Proof.
  intros bad good B s.
  assert (M : faults good s (indices_where bad s)).
  { split; [|intros a b l1 l2 l3 H; eapply sorted_filter; exact H]. intros i. unfold indices_where. rewrite filter_In, in_seq, B. unfold char_at. split.
    - intros [L N]. exists (nth i s 0). split; auto. apply nth_error_nth'. lia.
    - intros (c & A & N). rewrite (nth_error_nth _ _ 0 A). split; auto. assert (i < length s)%nat by (apply nth_error_Some; congruence). lia. }
  intros l. split; [|intros ->; exact M]. intros [A S]. destruct M as [A' S']. apply sorted_unique; auto. intros i. rewrite A, A'. reflexivity.
Qed.
Lemma no_faults : forall good s, faults good s [] -> (forall c, good c \/ ~ good c) -> Forall good s.
Proof.
  intros good s [A _] D. apply Forall_forall. intros c I. apply In_nth_error in I as (i & I). destruct (D c) as [|N]; auto. exfalso. apply (A i). exists c. split; auto.
Qed.
Lemma no_faults' : forall good s, Forall good s -> faults good s [].
Proof.
  intros good s F. split; [|intros ? ? [|? ?] ? ? Q; discriminate]. intros i. split; [intros []|]. intros (c & C & N). elim N. apply nth_error_In in C. rewrite Forall_forall in F. auto.
Qed.
Lemma hex_char_dec : forall c, hex_char c \/ ~ hex_char c.
Proof. intros c. unfold hex_char. lia. Qed.
Lemma hexadecimal_report : forall repr v name location kind, exists f, hexadecimal v f /\ reported repr v name location kind f (validate_hex_says repr v name location kind).
Proof.
  intros repr v name location kind. destruct (proj1 (c72_hex repr v name location kind _) eq_refl) as [(N & m & t & -> & T & M)|[(s & -> & O & m & -> & M)|[(s & l & -> & O & F & NE & m & cs & -> & CS & M)|(s & -> & O & F & ->)]]].
  - eexists. split; [apply (hex_type v t N T)|]. now constructor.
  - eexists. split; [apply (hex_odd _ s eq_refl O)|]. now constructor.
  - eexists. split; [apply (hex_wrong_chars _ s l cs eq_refl O F NE CS)|]. constructor. unfold positions. rewrite <- !app_assoc in *. exact M.
  - exists Fine. split; [|constructor]. apply (hex_fine _ s eq_refl O). apply no_faults; auto. apply hex_char_dec.
Qed.
Lemma shown_chars_fun : forall (P : nat -> pystr -> Prop) l cs cs', (forall i c c', P i c -> P i c' -> c = c') -> Forall2 P l cs -> Forall2 P l cs' -> cs = cs'.
Proof. intros P l cs cs' U H. revert cs'. induction H; intros cs' H'; inversion H'; subst; f_equal; eauto. Qed.
Lemma faults_fun_of : forall good s l l', faults good s l -> faults good s l' -> l = l'.
Proof. intros good s l l' [A S] [A' S']. apply sorted_unique; auto. intros i. rewrite A, A'. reflexivity. Qed.
Lemma hexadecimal_fun : forall v f g, hexadecimal v f -> hexadecimal v g -> f = g.
Proof.
  intros v f g H H'.
  destruct H as [t N T|s -> O|s l cs -> O F NE CS|s -> O F]; destruct H' as [t' N' T'|s' Q O'|s' l' cs' Q O' F' NE' CS'|s' Q O' F'];
    try (subst; elim (N _ eq_refl)); try (elim (N' _ eq_refl)); try (injection Q as <-); try congruence; try reflexivity.
  - now rewrite (type_fun _ _ _ T T').
  - pose proof (faults_fun_of _ _ _ _ F F') as <-. rewrite (shown_chars_fun _ _ _ _ (fun i c c' A B => match A, B with ex_intro _ x (conj X Y), ex_intro _ x' (conj X' Y') => eq_trans Y (eq_trans (f_equal (fun z => if z =? 10 then [92; 110] else [z]) (f_equal (fun o => match o with Some z => z | None => 0 end) (eq_trans (eq_sym X) X'))) (eq_sym Y')) end) CS CS'). reflexivity.
  - elim NE. eapply faults_fun_of; [exact F|]. now apply no_faults'.
  - elim NE'. eapply faults_fun_of; [exact F'|]. now apply no_faults'.
Qed.

Lemma shown_written : forall repr v t, written repr v t <-> t = shown repr v.
Proof.
  intros repr v t. split; [intros [s|z|w A B]; try reflexivity; destruct w; try reflexivity; [elim (B z); auto|elim (A s); auto]|].
  intros ->. unfold shown. destruct v; try (apply written_other; discriminate); constructor.
Qed.
Lemma hexadecimal_str : forall v, hexadecimal v Fine -> exists s, v = PStr s.
Proof. intros v H. inversion H; eauto. Qed.
(** C94.  validate_hex_length: first whether the value is hex, then whether n is an int, then the length. *)
Lemma c94_hex_length : forall repr v n name location kind r, validate_hex_length_says repr v n name location kind = r <->
  exists kind', expected_length repr n kind kind' /\ exists value name' kind'' f, hex_with_length v n name kind' value name' kind'' f /\ reported repr value name' location kind'' f r.
Proof.
  intros repr v n name location kind r. unfold validate_hex_length_says. cbv zeta.
  set (k := match kind with PNone => PStr (lit "hex_length_" ++ shown repr n ++ lit "_bytes") | _ => kind end).
  assert (K : forall k', expected_length repr n kind k' <-> k' = k).
  { intros k'. split.
    - intros H. unfold k. clear k. destruct H as [kd N|t W]; [destruct kd; auto; congruence|]. apply shown_written in W as ->. reflexivity.
    - intros ->. subst k. destruct kind; try (apply kind_given; discriminate). apply kind_made. now apply shown_written. }
  transitivity (exists value name' kind'' f, hex_with_length v n name k value name' kind'' f /\ reported repr value name' location kind'' f r);
    [|split; [intros H; exists k; split; [now apply K|exact H]|intros (k' & Q & H); apply K in Q as ->; exact H]].
  clearbody k. clear K kind.
  assert (U : forall va na ki f va' na' ki' f', hex_with_length v n name k va na ki f -> hex_with_length v n name k va' na' ki' f' -> va = va' /\ na = na' /\ ki = ki' /\ f = f').
  { intros va na ki f va' na' ki' f' H H'. destruct H as [f H N|t H I T|s z -> H I L|s z -> H I L]; destruct H' as [f' H' N'|t' H' I' T'|s' z' Q H' I' L'|s' z' Q H' I' L'];
      try (pose proof (hexadecimal_fun _ _ _ H H'); congruence); try (elim (I _ I')); try (elim (I' _ I)); try (injection Q as <-; apply int_value_iff in I, I'; assert (z = z') by congruence; subst z'); try (exfalso; lia); auto.
    - pose proof (hexadecimal_fun _ _ _ H H') as <-. auto.
    - rewrite (type_fun _ _ _ T T'). auto. }
  assert (X : exists va na ki f, hex_with_length v n name k va na ki f /\ reported repr va na location ki f
    match validate_hex_says repr v name location k with
    | Some r => Some r
    | None => match as_int n with
      | Some k0 => match v with PStr s => if negb (Z.of_nat (length s) =? k0 * 2) then complain repr ValueError (lit "whose length is " ++ int_str (Z.of_nat (length s)) ++ lit " chars, not " ++ int_str (k0 * 2) ++ lit " chars.") v name location k else None | _ => None end
      | None => complain repr TypeError (wrong_type_msg n "int") n (Some (lit "n (i.e. the hex length)")) location PNone
      end
    end).
  { destruct (hexadecimal_report repr v name location k) as (f & HF & RF). destruct (validate_hex_says repr v name location k) as [x|] eqn:V.
    - exists v, name, k, f. split; auto. apply length_no_hex; auto. intros ->. inversion RF.
    - assert (F0 : f = Fine) by (inversion RF; auto). subst f. destruct (hexadecimal_str v HF) as (s & ->). destruct (as_int n) as [z|] eqn:Q.
      + pose proof (proj2 (int_value_iff n z) Q) as I. destruct (Z.eqb_spec (Z.of_nat (length s)) (z * 2)) as [L|L]; cbn [negb].
        * exists (PStr s), name, k, Fine. split; [apply (length_fine _ _ _ _ s z eq_refl HF I); lia|constructor].
        * eexists _, _, _, _. split; [apply (length_wrong _ _ name k s z eq_refl HF I); lia|]. rewrite (Z.mul_comm z 2). apply complain_wrong.
      + destruct (type_called_total n) as (t & T & TL). eexists _, _, _, _. split; [apply (length_type _ _ name k t HF); [now apply no_int_iff|exact T]|]. rewrite TL. apply complain_wrong. }
  destruct X as (va & na & ki & f & H & R). split.
  - intros <-. exists va, na, ki, f. split; auto.
  - intros (va' & na' & ki' & f' & H' & R'). destruct (U _ _ _ _ _ _ _ _ H H') as (-> & -> & -> & ->). eapply reported_fun; eauto.
Qed.

Lemma digit_dec : forall c, digit_char c \/ ~ digit_char c.
Proof. intros c. rewrite <- isdigit_iff. destruct (char_isdigit c); auto. Qed.
Lemma chars_at : forall s l, (forall i, In i l -> exists c, char_at s i c) -> Forall2 (char_at s) l (map (fun i => nth i s 0) l).
Proof.
  intros s l. induction l as [|i l IH]; intros H; constructor; [|apply IH; intros; apply H; now right]. destruct (H i (or_introl eq_refl)) as (c & C). unfold char_at in *. rewrite (nth_error_nth _ _ 0 C). exact C.
Qed.
Lemma chars_at_fun : forall s l cs cs', Forall2 (char_at s) l cs -> Forall2 (char_at s) l cs' -> cs = cs'.
Proof. intros s l cs cs' H. revert cs'. induction H; intros cs' H'; inversion H'; subst; f_equal; eauto. unfold char_at in *. congruence. Qed.
Lemma string_report : forall repr v name location kind (R : finding -> Prop) (rest : pystr -> option (exn * pystr)),
  (forall t, (forall s, v <> PStr s) -> type_called v t -> R (Wrong TypeError (lit "which has type '" ++ lit t ++ lit "', not 'str'."))) ->
  (forall s, v = PStr s -> exists f, R f /\ reported repr v name location kind f (rest s)) ->
  exists f, R f /\ reported repr v name location kind f (match validate_string_says repr v name location kind with Some r => Some r | None => match v with PStr s => rest s | _ => None end end).
Proof.
  intros repr v name location kind R rest A B. destruct v as [|b|z|f|s|l|d]; try (match goal with |- context [validate_string_says repr ?x _ _ _] => destruct (type_called_total x) as (t & T & L) end; eexists; split; [apply (A t); [discriminate|exact T]|];
    rewrite L; unfold validate_string_says; cbv beta iota; match goal with |- reported _ _ _ _ _ _ (match ?c with _ => _ end) => destruct (proj1 (complain_iff _ _ _ _ _ _ _ c) eq_refl) as (m & Q & M); rewrite Q; constructor; exact M end).
  apply (B s eq_refl).
Qed.
Lemma digits_report_str : forall repr s name location kind, exists f, digits repr (PStr s) f /\ reported repr (PStr s) name location kind f
  (let indices := indices_where (fun c => negb (char_isdigit c)) s in
   if 0 <? Z.of_nat (length indices) then
     complain repr ValueError (lit "where the chars at indices " ++ show_indices indices ++ lit " (with values " ++ repr (PList (map (fun i => PStr [nth i s 0]) indices)) ++ lit ") are not digits.") (PStr s) name location kind
   else None).
Proof.
  intros repr s name location kind. cbv zeta.
  assert (BAD : forall c, negb (char_isdigit c) = true <-> ~ digit_char c). { intros c. rewrite <- isdigit_iff. destruct (char_isdigit c); cbn; split; congruence. }
  set (l := indices_where (fun c => negb (char_isdigit c)) s). pose proof (proj2 (faults_where _ _ BAD s l) eq_refl) as FL.
  destruct (Z.ltb_spec 0 (Z.of_nat (length l))) as [P|P].
  - eexists. split; [apply (digits_chars repr _ s l (map (fun i => nth i s 0) l) eq_refl FL)|].
    + intros Q. rewrite Q in P. cbn in P. lia.
    + apply chars_at. intros i I. apply (proj1 FL) in I as (c & C & _). eauto.
    + rewrite map_map. unfold positions. rewrite <- separated_ints. apply complain_wrong.
  - exists Fine. split; [|constructor]. apply (digits_fine repr _ s eq_refl). apply no_faults; [|apply digit_dec]. replace (@nil nat) with l by (destruct l; [reflexivity|cbn [length] in P; lia]). exact FL.
Qed.
Lemma digits_fun : forall repr v f g, digits repr v f -> digits repr v g -> f = g.
Proof.
  intros repr v f g H H'. destruct H as [t N T|s l cs -> F NE CS|s -> F]; destruct H' as [t' N' T'|s' l' cs' Q F' NE' CS'|s' Q F'];
    try (subst; elim (N _ eq_refl)); try (elim (N' _ eq_refl)); try (injection Q as <-); try reflexivity.
  - now rewrite (type_fun _ _ _ T T').
  - pose proof (faults_fun_of _ _ _ _ F F') as <-. pose proof (chars_at_fun _ _ _ _ CS CS') as <-. reflexivity.
  - elim NE. eapply faults_fun_of; [exact F|]. now apply no_faults'.
  - elim NE'. eapply faults_fun_of; [exact F'|]. now apply no_faults'.
Qed.
Lemma digits_zero : Forall digit_char (lit "0").
Proof. constructor; [left; vm_compute; split; discriminate|constructor]. Qed.
Lemma positive_digits_report : forall repr v name location kind, exists f, positive_digits repr v f /\ reported repr v name location kind f (validate_string_is_positive_integer_says repr v name location kind).
Proof.
  intros repr v name location kind. unfold validate_string_is_positive_integer_says. apply string_report.
  - intros t N T. apply positive_digits_other; [apply N|now constructor].
  - intros s ->. destruct (str_eqb s (lit "0")) eqn:Q.
    + apply str_eqb_eq in Q as ->. eexists. split; [now apply positive_digits_zero|constructor].
    + destruct (digits_report_str repr s name location kind) as (f & D & R). exists f. split; [|exact R]. apply positive_digits_other; auto. intros A. injection A as ->. rewrite str_eqb_refl in Q. discriminate.
Qed.
Lemma whole_digits_report : forall repr v name location kind, exists f, digits repr v f /\ reported repr v name location kind f (validate_string_is_whole_number_says repr v name location kind).
Proof.
  intros repr v name location kind. unfold validate_string_is_whole_number_says.
  apply (string_report repr v name location kind (digits repr v) (fun s => if str_eqb s (lit "0") then None else validate_string_is_positive_integer_says repr v name location kind)); [intros t N T; now constructor|].
  intros s ->. destruct (str_eqb s (lit "0")) eqn:Q.
  - apply str_eqb_eq in Q as ->. exists Fine. split; [|constructor]. apply (digits_fine repr _ _ eq_refl). apply digits_zero.
  - unfold validate_string_is_positive_integer_says. cbn [validate_string_says]. rewrite Q. apply digits_report_str.
Qed.
(** C94.  The validators of strings of digits. *)
Lemma c94_digits : forall repr v name location kind r,
  (validate_string_is_positive_integer_says repr v name location kind = r <-> exists f, positive_digits repr v f /\ reported repr v name location kind f r) /\
  (validate_string_is_whole_number_says repr v name location kind = r <-> exists f, digits repr v f /\ reported repr v name location kind f r).
Proof.
  intros repr v name location kind r. split; apply by_finding.
  - apply positive_digits_report.
  - intros f g [A|f' A D] [B|g' B D']; try tauto. eapply digits_fun; eauto.
  - apply whole_digits_report.
  - apply digits_fun.
Qed.

Lemma dots_count : forall k s, dots k s <-> count_char 46 s = k.
Proof.
  assert (CA : forall a b, count_char 46 (a ++ b) = (count_char 46 a + count_char 46 b)%nat). { intros a b. unfold count_char. rewrite filter_app, app_length. reflexivity. }
  intros k s. split.
  - intros H. induction H as [s N|k s s' N H IH]; [apply count_none, N|]. rewrite !CA, (proj1 (count_none s N)), IH. reflexivity.
  - intros <-. remember (length s) as len eqn:L. assert (LE : (length s <= len)%nat) by lia. clear L. revert s LE. induction len as [|len IH]; intros s LE.
    + destruct s; [|cbn [length] in LE; lia]. apply no_dot. intros [].
    + destruct (in_dec Z.eq_dec 46 s) as [I|N]; [|rewrite (proj1 (count_none s N)); now apply no_dot].
      assert (SP : exists a b, s = a ++ [46] ++ b /\ ~ In 46 a).
      { clear IH LE. induction s as [|c s IHs]; [destruct I|]. destruct (Z.eq_dec c 46) as [->|NC]; [exists [], s; split; [reflexivity|intros []]|].
        destruct I as [I|I]; [congruence|]. destruct (IHs I) as (a & b & -> & NA). exists (c :: a), b. split; [reflexivity|]. intros [A|A]; auto. }
      destruct SP as (a & b & -> & NA). rewrite !CA, (proj1 (count_none a NA)). change (count_char 46 [46]) with 1%nat. cbn [Nat.add]. apply a_dot; auto. apply IH.
      rewrite !app_length in LE. cbn [length] in LE. lia.
Qed.
Lemma digit_not_dot : forall a, Forall digit_char a -> ~ In 46 a.
Proof. intros a F I. rewrite Forall_forall in F. apply F in I. unfold digit_char in I. lia. Qed.
Lemma decimal_not_dot : forall a, Forall decimal_char a -> ~ In 46 a.
Proof. intros a F I. rewrite Forall_forall in F. apply F in I as (d & R & [A|[A _]]); lia. Qed.
Lemma decimal_digit : UniOk E -> forall a, Forall decimal_char a -> Forall digit_char a.
Proof. intros HU a F. eapply Forall_impl; [|exact F]. intros c (d & R & [A|[A B]]); [left; lia|right; split; auto]. apply HU in B. tauto. Qed.
Lemma dot_unique : forall a b a' b', ~ In 46 a -> ~ In 46 a' -> a ++ [46] ++ b = a' ++ [46] ++ b' -> a = a' /\ b = b'.
Proof.
  induction a as [|c a IH]; intros b [|c' a'] b' N N' Q; cbn [app] in Q; injection Q; auto.
  - intros _ <-. elim N'. now left.
  - intros _ ->. elim N. now left.
  - intros Q' <-. destruct (IH b a' b') as [-> ->]; auto; intros I; [apply N|apply N']; now right.
Qed.
Lemma isdigit_both : forall a b, negb (str_isdigit a) || negb (str_isdigit b) = false <-> decimal_digits digit_char a b.
Proof.
  intros a b. rewrite orb_false_iff, !negb_false_iff, !str_isdigit_iff, !alldigit_iff. unfold decimal_digits. tauto.
Qed.
Lemma dp_match_iff : UniOk E -> forall a b n, decimal_digits digit_char a b -> 0 <= n < 4294967295 -> (dp_match (Z.to_nat n) (a ++ [46] ++ b) = true <-> decimal_digits decimal_char a b /\ Z.of_nat (length b) = n).
Proof.
  intros HU a b n D R. pose proof (c58_decimal_places HU (a ++ [46] ++ b) n R) as C.
  assert (OK : validate_string_is_decimal (PStr (a ++ [46] ++ b)) = Ok tt). { apply c53_decimal. exists a, b. unfold decimal_digits in D. tauto. }
  unfold validate_string_is_decimal_dp in C. rewrite OK in C. cbn [bind as_str as_int] in C.
  destruct (Z.ltb_spec n 0) as [|_]; [lia|]. destruct (Z.leb_spec 4294967295 n) as [|_]; [lia|].
  assert (C2 : dp_match (Z.to_nat n) (a ++ [46] ++ b) = true <-> (if dp_match (Z.to_nat n) (a ++ [46] ++ b) then Ok tt else Err ValueError) = Ok tt) by (destruct (dp_match _ _); split; congruence).
  rewrite C2, C. destruct D as (NA & NB & DA & DB). split.
  - intros (a' & b' & Q & NA' & NB' & DA' & DB' & L). apply dot_unique in Q as [<- <-]; [|now apply digit_not_dot|now apply decimal_not_dot]. unfold decimal_digits. tauto.
  - intros [(_ & _ & DA' & DB') L]. exists a, b. tauto.
Qed.
Lemma decimal_report : UniOk E -> forall repr v dp name location kind, exists f, decimal repr dp v f /\ reported repr v name location kind f (validate_string_is_decimal_says repr v dp name location kind).
Proof.
  intros HU repr v dp name location kind. unfold validate_string_is_decimal_says. apply string_report; [intros t N T; now constructor|]. intros s ->.
  destruct (Nat.eqb_spec (count_char 46 s) 1) as [C1|C1]; cbn [negb].
  - destruct (count1 s C1) as (a & b & -> & NA & NB). destruct (one_dot a b NA NB) as (_ & _ & ->). destruct (negb (str_isdigit a) || negb (str_isdigit b)) eqn:DD.
    + eexists. split; [apply (decimal_chars repr dp _ a b eq_refl NA NB)|apply complain_unexpected]. intros D. apply isdigit_both in D. congruence.
    + apply isdigit_both in DD. destruct (as_int dp) as [n|] eqn:AI.
      * pose proof (proj2 (int_value_iff dp n) AI) as I. destruct (Z.leb_spec 4294967295 n) as [H|H].
        -- eexists. split; [apply (decimal_huge repr dp _ a b n eq_refl DD I); lia|constructor].
        -- assert (WR : ~ (decimal_digits decimal_char a b /\ Z.of_nat (length b) = n) -> exists f, decimal repr dp (PStr (a ++ [46] ++ b)) f /\ reported repr (PStr (a ++ [46] ++ b)) name location kind f
             (complain repr ValueError (lit "which is not a valid " ++ shown repr dp ++ lit "-decimal-place decimal value.") (PStr (a ++ [46] ++ b)) name location kind)).
           { intros N. eexists. split; [apply (decimal_wrong repr dp _ a b n (shown repr dp) eq_refl DD I H N); now apply shown_written|apply complain_wrong]. }
           destruct (Z.ltb_spec n 0) as [L|L]; cbn [orb]; [apply WR; intros [_ Q]; lia|].
           destruct (dp_match (Z.to_nat n) (a ++ [46] ++ b)) eqn:M; cbn [negb].
           ++ apply (dp_match_iff HU a b n DD) in M as [D Q]; [|lia]. exists Fine. split; [apply (decimal_places repr dp _ a b n eq_refl D I Q H)|constructor].
           ++ apply WR. intros X. apply (dp_match_iff HU a b n DD) in X; [congruence|lia].
      * exists Fine. split; [apply (decimal_any repr dp _ a b eq_refl DD); now apply no_int_iff|constructor].
  - eexists. split; [apply (decimal_dots repr dp _ s (count_char 46 s) eq_refl); [now apply dots_count|exact C1]|apply complain_unexpected].
Qed.
Lemma decimal_fun : UniOk E -> forall repr dp v f g, decimal repr dp v f -> decimal repr dp v g -> f = g.
Proof.
  intros HU repr dp v f g H H'.
  assert (DN : forall a b, decimal_digits digit_char a b -> ~ In 46 a /\ ~ In 46 b) by (intros a b (_ & _ & A & B); split; now apply digit_not_dot).
  assert (DD : forall a b, decimal_digits decimal_char a b -> decimal_digits digit_char a b) by (intros a b (A & B & C & D); unfold decimal_digits; auto using decimal_digit).
  (* every case but the first two gives v = a.b with no dots in a and b *)
  assert (SHAPE : forall f, decimal repr dp v f ->
    ((forall s, v <> PStr s) /\ exists t, type_called v t /\ f = Wrong TypeError (lit "which has type '" ++ lit t ++ lit "', not 'str'.")) \/
    (exists s, v = PStr s /\ count_char 46 s <> 1%nat /\ f = WrongUnexpected TypeError (lit "which has " ++ int_str (Z.of_nat (count_char 46 s)) ++ lit " decimal points, not 1.")) \/
    (exists a b, v = PStr (a ++ [46] ++ b) /\ ~ In 46 a /\ ~ In 46 b /\
      ((~ decimal_digits digit_char a b /\ f = WrongUnexpected TypeError (lit "which has non-digit characters.")) \/
       (decimal_digits digit_char a b /\
        ((no_int dp /\ f = Fine) \/
         (exists n, int_value dp n /\ ((2 ^ 32 - 1 <= n /\ f = Plainly OverflowError (lit "the repetition number is too large")) \/
            (n < 2 ^ 32 - 1 /\ ((decimal_digits decimal_char a b /\ Z.of_nat (length b) = n /\ f = Fine) \/
               (~ (decimal_digits decimal_char a b /\ Z.of_nat (length b) = n) /\ f = Wrong ValueError (lit "which is not a valid " ++ shown repr dp ++ lit "-decimal-place decimal value."))))))))))).
  { intros h [t N T|s k -> K N|a b -> NA NB D|a b -> D I|a b n -> D I L|a b n -> D I Q L|a b n d -> D I L N W].
    - left. eauto.
    - right; left. apply dots_count in K as <-. eauto.
    - right; right. exists a, b. auto 12.
    - right; right. destruct (DN _ _ D). exists a, b. auto 12.
    - right; right. destruct (DN _ _ D). exists a, b. split; auto. split; auto. split; auto. right. split; auto. right. exists n. auto 12.
    - right; right. pose proof (DD _ _ D) as D'. destruct (DN _ _ D'). exists a, b. split; auto. split; auto. split; auto. right. split; auto. right. exists n. auto 12.
    - right; right. destruct (DN _ _ D). apply shown_written in W as ->. exists a, b. split; auto. split; auto. split; auto. right. split; auto. right. exists n. auto 12. }
  apply SHAPE in H, H'. clear SHAPE.
  destruct H as [(N & t & T & ->)|[(s & -> & C & ->)|(a & b & -> & NA & NB & H)]]; destruct H' as [(N' & t' & T' & ->)|[(s' & Q & C' & ->)|(a' & b' & Q & NA' & NB' & H')]];
    try (subst; elim (N _ eq_refl)); try (elim (N' _ eq_refl)).
  - now rewrite (type_fun _ _ _ T T').
  - injection Q as <-. reflexivity.
  - exfalso. assert (Q2 : s = a' ++ [46] ++ b') by (injection Q; auto). rewrite Q2 in C. apply C. apply one_dot; auto.
  - exfalso. assert (Q2 : s' = a ++ [46] ++ b) by (injection Q; auto). rewrite Q2 in C'. apply C'. apply one_dot; auto.
  - assert (Q2 : a ++ [46] ++ b = a' ++ [46] ++ b') by (injection Q; auto). apply dot_unique in Q2 as [<- <-]; auto. clear Q.
    destruct H as [[D ->]|[D [[I ->]|(n & I & [[L ->]|[L [(P & Q & ->)|[P ->]]]])]]]; destruct H' as [[D' ->]|[D' [[I' ->]|(n' & I' & [[L' ->]|[L' [(P' & Q' & ->)|[P' ->]]]])]]];
      try tauto; try reflexivity; try (elim (I _ I')); try (elim (I' _ I)); apply int_value_iff in I, I'; assert (QN : n = n') by congruence; clear I I'; try (exfalso; lia); exfalso; first [apply P'; split; [assumption|lia]|apply P; split; [assumption|lia]].
Qed.
Lemma either_fun : forall (P Q : finding -> Prop), (forall f g, P f -> P g -> f = g) -> (forall f g, Q f -> Q g -> f = g) -> forall f g, either P Q f -> either P Q g -> f = g.
Proof. intros P Q UP UQ f g [A|A|f' f2 A B N N2] [A'|A'|g' g2 A' B' N' N2']; auto; exfalso; eauto. Qed.
(** C94.  validate_string_is_decimal, and whole number or decimal: of two faults the first is reported. *)
Lemma c94_decimal : UniOk E -> forall repr v dp name location kind r,
  (validate_string_is_decimal_says repr v dp name location kind = r <-> exists f, decimal repr dp v f /\ reported repr v name location kind f r) /\
  (validate_string_is_whole_number_or_decimal_says repr v dp name location kind = r <-> exists f, either (digits repr v) (decimal repr dp v) f /\ reported repr v name location kind f r).
Proof.
  intros HU repr v dp name location kind r. split; apply by_finding.
  - now apply decimal_report.
  - now apply decimal_fun.
  - unfold validate_string_is_whole_number_or_decimal_says. destruct (whole_digits_report repr v name location kind) as (f & D & R). destruct (decimal_report HU repr v dp name location kind) as (g & D' & R').
    destruct (validate_string_is_whole_number_says repr v name location kind) as [x|].
    + destruct (validate_string_is_decimal_says repr v dp name location kind) as [y|].
      * exists f. split; auto. apply (either_none _ _ f g); auto; intros ->; [inversion R|inversion R'].
      * exists Fine. split; [|constructor]. apply either_second. inversion R'; subst; auto.
    + exists Fine. split; [|constructor]. apply either_first. inversion R; subst; auto.
  - apply either_fun; [apply digits_fun|now apply decimal_fun].
Qed.
(** C94.  validate_string_is_date. *)
Lemma c94_date : UniOk E -> forall repr v name location kind r,
  validate_string_is_date_says repr v name location kind = r <-> exists f, date v f /\ reported repr v name location kind f r.
Proof.
  intros HU repr v name location kind r. apply by_finding.
  - unfold validate_string_is_date_says. apply string_report; [intros t N T; now constructor|]. intros s ->. pose proof (date_match_iff HU s) as K. destruct (date_match s) eqn:M; cbn [negb].
    + exists Fine. split; [|constructor]. apply (date_fine _ s eq_refl). now apply K.
    + eexists. split; [apply (date_wrong _ s eq_refl)|apply complain_wrong]. intros D. apply K in D. discriminate.
  - intros f g [t N T|s -> D|s -> D] [t' N' T'|s' Q D'|s' Q D']; try (subst; elim (N _ eq_refl)); try (elim (N' _ eq_refl)); try (injection Q as <-); try tauto. now rewrite (type_fun _ _ _ T T').
Qed.

Lemma int_total : forall v, {n | int_value v n} + {no_int v}.
Proof. intros v. destruct (as_int v) as [n|] eqn:Q; [left; exists n; now apply int_value_iff|right; now apply no_int_iff]. Qed.
Lemma int_fun : forall v n n', int_value v n -> int_value v n' -> n = n'.
Proof. intros v n n' H H'. apply int_value_iff in H, H'. congruence. Qed.
Lemma int_not_none : forall v n, int_value v n -> ~ no_int v.
Proof. intros v n H N. exact (N n H). Qed.
Lemma domain_type_cases : forall v lo hi pre x post, [v; lo; hi] = pre ++ [x] ++ post -> Forall (fun y => ~ no_int y) pre ->
  x = v \/ (x = lo /\ ~ no_int v) \/ (x = hi /\ ~ no_int v /\ ~ no_int lo).
Proof.
  intros v lo hi [|p [|q [|w pre]]] x post Q F; cbn [app] in Q.
  - left. injection Q; auto.
  - right; left. injection Q as <- -> _. inversion F; auto.
  - right; right. injection Q as <- <- -> _. inversion F as [|? ? A B]; subst. inversion B; subst. auto.
  - exfalso. apply (f_equal (@length pyval)) in Q. cbn [length app] in Q. rewrite !app_length in Q. cbn [length] in Q. lia.
Qed.
Lemma domain_fun : forall repr v lo hi x f y g, in_domain repr v lo hi x f -> in_domain repr v lo hi y g -> x = y /\ f = g.
Proof.
  assert (TY : forall repr v lo hi x f, in_domain repr v lo hi x f ->
    (exists n a b, int_value v n /\ int_value lo a /\ int_value hi b /\ x = v /\
      f = if b <? a then Plainly ValueError (paragraph [lit "Minimum value must be less than maximum value."; lit "- Mininimum value: " ++ shown repr lo; lit "- Maximum value: " ++ shown repr hi])
          else if n <? a then Plainly ValueError (paragraph [lit "Input is less than the minimum value."; lit "- Minimum value: " ++ shown repr lo; lit "- Input: " ++ shown repr v])
          else if b <? n then Plainly ValueError (paragraph [lit "Input is greater than the maximum value."; lit "- Maximum value: " ++ shown repr hi; lit "- Input: " ++ shown repr v]) else Fine) \/
    (x = (if as_int v then if as_int lo then hi else lo else v) /\ no_int x /\ f = Wrong TypeError (lit "which has type '" ++ type_name x ++ lit "', not 'int'."))).
  { intros repr v lo hi x f [pre y post t Q F N T|n a b ta tb V L H O WA WB|n a b V L H O|n a b tn ta V L H O O2 WN WA|n a b tn tb V L H O O2 WN WB].
    - right. apply type_name_iff in T. rewrite T. split; [|split; auto].
      assert (NN : forall z, ~ no_int z -> exists k, as_int z = Some k). { intros z NZ. destruct (int_total z) as [(k & I)|I]; [|tauto]. exists k. now apply int_value_iff. }
      destruct (domain_type_cases _ _ _ _ _ _ Q F) as [->|[[-> NV]|(-> & NV & NL)]].
      + apply no_int_iff in N. now rewrite N.
      + destruct (NN _ NV) as (k & ->). apply no_int_iff in N. now rewrite N.
      + destruct (NN _ NV) as (k & ->). destruct (NN _ NL) as (k2 & ->). reflexivity.
    - left. exists n, a, b. apply shown_written in WA as ->. apply shown_written in WB as ->. destruct (Z.ltb_spec b a); [auto 6|lia].
    - left. exists n, a, b. destruct (Z.ltb_spec b a), (Z.ltb_spec n a), (Z.ltb_spec b n); try lia. auto 6.
    - left. exists n, a, b. apply shown_written in WA as ->. apply shown_written in WN as ->. destruct (Z.ltb_spec b a), (Z.ltb_spec n a); try lia. auto 6.
    - left. exists n, a, b. apply shown_written in WB as ->. apply shown_written in WN as ->. destruct (Z.ltb_spec b a), (Z.ltb_spec n a), (Z.ltb_spec b n); try lia. auto 6. }
  intros repr v lo hi x f y g H H'. apply TY in H, H'. clear TY.
  destruct H as [(n & a & b & V & L & K & -> & ->)|(-> & N & ->)]; destruct H' as [(n' & a' & b' & V' & L' & K' & -> & ->)|(-> & N' & ->)].
  - rewrite (int_fun _ _ _ V V'), (int_fun _ _ _ L L'), (int_fun _ _ _ K K'). auto.
  - exfalso. rewrite (proj1 (int_value_iff _ _) V), (proj1 (int_value_iff _ _) L) in N'. exact (N' _ K).
  - exfalso. rewrite (proj1 (int_value_iff _ _) V'), (proj1 (int_value_iff _ _) L') in N. exact (N _ K').
  - auto.
Qed.
(** C94.  validate_integer_domain: the types of the three values in order, then the interval, then the value. *)
Lemma c94_domain : forall repr v lo hi r, validate_integer_domain_says repr v lo hi = r <->
  exists x f, in_domain repr v lo hi x f /\ reported repr x None PNone (PStr (lit "integer")) f r.
Proof.
  intros repr v lo hi r.
  assert (X : exists x f, in_domain repr v lo hi x f /\ reported repr x None PNone (PStr (lit "integer")) f (validate_integer_domain_says repr v lo hi)).
  { assert (T : forall pre x post, [v; lo; hi] = pre ++ [x] ++ post -> Forall (fun y => ~ no_int y) pre -> as_int x = None ->
      exists y f, in_domain repr v lo hi y f /\ reported repr y None PNone (PStr (lit "integer")) f (complain repr TypeError (wrong_type_msg x "int") x None PNone (PStr (lit "integer")))).
    { intros pre x post Q F N. destruct (type_called_total x) as (t & T & L). exists x. eexists. split; [apply (domain_type repr v lo hi pre x post t Q F); [now apply no_int_iff|exact T]|]. rewrite L. apply complain_wrong. }
    assert (NN : forall z k, as_int z = Some k -> ~ no_int z) by (intros z k Q; eapply int_not_none; apply int_value_iff; exact Q).
    unfold validate_integer_domain_says, validate_integer_says. cbv zeta.
    assert (S : forall x, match complain repr TypeError (wrong_type_msg x "int") x None PNone (PStr (lit "integer")) with Some r => Some r | None => None end = complain repr TypeError (wrong_type_msg x "int") x None PNone (PStr (lit "integer"))) by (intros x; destruct (complain _ _ _ _ _ _ _); reflexivity).
    assert (NC : forall x (y : option (exn * pystr)), match complain repr TypeError (wrong_type_msg x "int") x None PNone (PStr (lit "integer")) with Some r => Some r | None => y end = complain repr TypeError (wrong_type_msg x "int") x None PNone (PStr (lit "integer"))).
    { intros x y. destruct (proj1 (complain_iff repr TypeError (wrong_type_msg x "int") x None PNone (PStr (lit "integer")) _) eq_refl) as (m & -> & _). reflexivity. }
    destruct (as_int v) as [n|] eqn:V; [|rewrite NC; apply (T [] v [lo; hi] eq_refl); auto].
    destruct (as_int lo) as [a|] eqn:L; [|rewrite NC; apply (T [v] lo [hi] eq_refl); auto; constructor; eauto].
    destruct (as_int hi) as [b|] eqn:H; [|rewrite NC; apply (T [v; lo] hi [] eq_refl); auto; constructor; eauto].
    apply int_value_iff in V, L, H. exists v. destruct (Z.ltb_spec b a).
    - eexists. split; [eapply (domain_empty repr v lo hi n a b); eauto; now apply shown_written|]. unfold paragraph, newline. cbn [flat_map]. rewrite <- !app_assoc. apply report_plainly.
    - destruct (Z.leb_spec a n), (Z.leb_spec n b); cbn [andb]; [exists Fine; split; [apply (domain_fine repr v lo hi n a b); auto|constructor]| | |]; destruct (Z.ltb_spec n a); try lia.
      + destruct (Z.ltb_spec b n); [|lia]. eexists. split; [eapply (domain_greater repr v lo hi n a b); eauto; now apply shown_written|]. unfold paragraph, newline. cbn [flat_map]. rewrite <- !app_assoc. apply report_plainly.
      + eexists. split; [eapply (domain_less repr v lo hi n a b); eauto; now apply shown_written|]. unfold paragraph, newline. cbn [flat_map]. rewrite <- !app_assoc. apply report_plainly. }
  destruct X as (x & f & A & B). split; [intros <-; eauto|]. intros (y & g & A' & B'). destruct (domain_fun _ _ _ _ _ _ _ _ A A') as [-> ->]. eapply reported_fun; eauto.
Qed.

Lemma bullets_listing : forall heading l, lit heading ++ bullets l = listing heading l.
Proof.
  intros heading l. unfold listing, bullets. f_equal.
  assert (H : forall acc, fold_left (fun msg x : list Z => msg ++ newline ++ lit "- " ++ x) l acc = acc ++ flat_map (fun x => [10] ++ lit "- " ++ x) l).
  { induction l as [|x l IH]; intros acc; cbn [fold_left flat_map]; [now rewrite app_nil_r|]. rewrite IH. unfold newline. rewrite <- !app_assoc. reflexivity. }
  apply H.
Qed.
Lemma missing_iff : forall l' l m, missing l' l m <-> m = fold_left (fun acc x => if negb (str_in x l') then acc ++ [x] else acc) l [].
Proof.
  intros l'.
  assert (H : forall l acc, fold_left (fun acc x => if negb (str_in x l') then acc ++ [x] else acc) l acc = acc ++ filter (fun x => negb (str_in x l')) l).
  { induction l as [|x l IH]; intros acc; cbn [fold_left filter]; [now rewrite app_nil_r|]. rewrite IH. destruct (negb (str_in x l')); [rewrite <- app_assoc; reflexivity|reflexivity]. }
  intros l m. rewrite H. cbn [app]. clear H. split.
  - intros M. induction M as [|x l m I M IH|x l m N M IH]; cbn [filter]; auto.
    + apply str_in_In in I. rewrite I. exact IH.
    + destruct (str_in x l') eqn:Q; [apply str_in_In in Q; tauto|]. cbn [negb]. now rewrite IH.
  - intros ->. induction l as [|x l IH]; cbn [filter]; [constructor|]. destruct (str_in x l') eqn:Q; cbn [negb].
    + apply missing_here; auto. now apply str_in_In.
    + apply missing_not; auto. intros I. apply str_in_In in I. congruence.
Qed.
(** C94.  The validators of lists: the texts list the items given and, for contains_items, exactly the missing ones. *)
Lemma c94_lists : 
  (forall input items r, validate_list_contains_items_says input items = r <->
     (missing input items [] /\ r = None) \/
     (exists m, missing input items m /\ m <> [] /\ r = Some (ValueError, listing "Some items are not in the list." [] ++ [10] ++ listing "List items:" input ++ [10] ++ listing "Items not found:" m))) /\
  (forall x l r, validate_item_in_list_says x l = r <->
     (In x l /\ r = None) \/ (~ In x l /\ r = Some (ValueError, lit "Item not in list. Item: " ++ x ++ [10] ++ listing "List items:" l))) /\
  (forall repr l l' r, validate_lists_are_identical_says repr l l' = r <->
     (Permutation l l' /\ r = None) \/
     (~ Permutation l l' /\ r = Some (ValueError, paragraph [lit "List are not identical."; lit "- List 1:"; repr (PList (map PStr l)); lit "- List 2:"; repr (PList (map PStr l'))]))).
Proof.
  split; [|split].
  - intros input items r. unfold validate_list_contains_items_says. cbv zeta. set (m := fold_left _ items []). pose proof (proj2 (missing_iff input items m) eq_refl) as M.
    assert (T : lit "Some items are not in the list." ++ newline ++ lit "List items:" ++ bullets input ++ newline ++ lit "Items not found:" ++ bullets m =
      listing "Some items are not in the list." [] ++ [10] ++ listing "List items:" input ++ [10] ++ listing "Items not found:" m).
    { rewrite <- (bullets_listing "List items:"), <- (bullets_listing "Items not found:"). unfold listing. cbn [flat_map]. rewrite app_nil_r. unfold newline. rewrite <- !app_assoc. reflexivity. }
    rewrite T. clear T. destruct (Z.eqb_spec (Z.of_nat (length m)) 0) as [L|L].
    + assert (m = []) as M0 by (destruct m; [reflexivity|cbn [length] in L; lia]). rewrite M0 in *. split; [intros <-; auto|]. intros [[_ ->]|(m' & M' & N & _)]; auto. apply missing_iff in M', M. elim N. rewrite M'. symmetry. exact M.
    + split; [intros <-; right; exists m; split; auto; split; auto; intros Q; rewrite Q in L; auto|]. intros [[M' _]|(m' & M' & N & ->)].
      * exfalso. apply missing_iff in M'. apply missing_iff in M. rewrite <- M' in M. rewrite M in L. auto.
      * apply missing_iff in M'. fold m in M'. now rewrite M'.
  - intros x l r. unfold validate_item_in_list_says. rewrite <- (bullets_listing "List items:"). destruct (str_in x l) eqn:Q.
    + apply str_in_In in Q. split; [intros <-; auto|]. intros [[_ ->]|[N _]]; [auto|tauto].
    + assert (N : ~ In x l) by (intros I; apply str_in_In in I; congruence). unfold newline. split; [intros <-; auto|]. intros [[I _]|[_ ->]]; [tauto|auto].
  - intros repr l l' r. destruct (proj2 (proj2 (proj2 c59_lists)) l l') as [A B]. unfold validate_lists_are_identical in A, B. unfold validate_lists_are_identical_says.
    assert (T : newline ++ lit "List are not identical." ++ newline ++ lit "- List 1:" ++ newline ++ repr (PList (map PStr l)) ++ newline ++ lit "- List 2:" ++ newline ++ repr (PList (map PStr l')) ++ newline =
      paragraph [lit "List are not identical."; lit "- List 1:"; repr (PList (map PStr l)); lit "- List 2:"; repr (PList (map PStr l'))]).
    { unfold paragraph, newline. cbn [flat_map]. rewrite <- !app_assoc. reflexivity. }
    rewrite T. destruct (negb (strs_eqb (str_sorted l) (str_sorted l'))) eqn:Q.
    + assert (N : ~ Permutation l l') by (intros P; apply A in P; discriminate). split; [intros <-; auto|]. intros [[P _]|[_ ->]]; [tauto|auto].
    + assert (P : Permutation l l'). { apply identical_iff. unfold validate_lists_are_identical. now rewrite Q. } split; [intros <-; auto|]. intros [[_ ->]|[N _]]; [auto|tauto].
Qed.

(** C94.  Each validator raises exactly what its model without texts raises (C11, C53, C54, C58, C59). *)
Lemma c94_same : forall repr v name location kind,
  validate_integer v = outcome_of (validate_integer_says repr v name location kind) /\
  validate_boolean v = outcome_of (validate_boolean_says repr v name location kind) /\
  validate_list v = outcome_of (validate_list_says repr v name location kind) /\
  validate_dict v = outcome_of (validate_dict_says repr v name location kind) /\
  validate_positive_integer v = outcome_of (validate_positive_integer_says repr v name location kind) /\
  validate_whole_number v = outcome_of (validate_whole_number_says repr v name location kind) /\
  (forall n, validate_hex_length v n = outcome_of (validate_hex_length_says repr v (PInt (Z.of_nat n)) name location kind)) /\
  validate_string_is_positive_integer v = outcome_of (validate_string_is_positive_integer_says repr v name location kind) /\
  validate_string_is_whole_number v = outcome_of (validate_string_is_whole_number_says repr v name location kind) /\
  (forall dp, validate_string_is_decimal_dp v dp = outcome_of (validate_string_is_decimal_says repr v dp name location kind)) /\
  validate_string_is_whole_number_or_decimal v = outcome_of (validate_string_is_whole_number_or_decimal_says repr v PNone name location kind) /\
  validate_string_is_date v = outcome_of (validate_string_is_date_says repr v name location kind) /\
  (forall lo hi, validate_integer_domain v lo hi = outcome_of (validate_integer_domain_says repr v (PInt lo) (PInt hi))) /\
  (forall l l', validate_list_contains_items l l' = outcome_of (validate_list_contains_items_says l l')) /\
  (forall x l, validate_item_in_list x l = outcome_of (validate_item_in_list_says x l)) /\
  (forall l l', validate_lists_are_identical l l' = outcome_of (validate_lists_are_identical_says repr l l')).
Proof.
  assert (CO : forall repr e msg value name location kind, outcome_of (complain repr e msg value name location kind) = Err e).
  { intros. destruct (proj1 (complain_iff repr e msg value name location kind _) eq_refl) as (m & -> & _). reflexivity. }
  assert (CM : forall repr e msg value name location kind (y : option (exn * pystr)), match complain repr e msg value name location kind with Some r => Some r | None => y end = complain repr e msg value name location kind).
  { intros. destruct (proj1 (complain_iff repr e msg value name location kind _) eq_refl) as (m & -> & _). reflexivity. }
  intros repr v name location kind.
  assert (IW : forall bad s, (0 <? Z.of_nat (length (indices_where bad s))) = existsb bad s).
  { intros bad s. destruct (existsb bad s) eqn:X.
    - apply existsb_exists in X as (c & I & B). apply In_nth_error in I as (i & I). assert (J : In i (indices_where bad s)). { apply filter_In. rewrite (nth_error_nth _ _ 0 I). split; auto. apply in_seq. assert (i < length s)%nat by (apply nth_error_Some; congruence). lia. }
      destruct (indices_where bad s); [destruct J|]. reflexivity.
    - destruct (indices_where bad s) as [|i l] eqn:Q; [reflexivity|]. assert (J : In i (indices_where bad s)) by (rewrite Q; now left). apply filter_In in J as [J B]. apply in_seq in J.
      assert (existsb bad s = true); [|congruence]. apply existsb_exists. exists (nth i s 0). split; auto. apply nth_In. lia. }
  assert (ST : forall (k : pystr -> res unit) (says : option (exn * pystr)), (forall s, v = PStr s -> k s = outcome_of says) ->
    bind (validate_string v) (fun _ => bind (as_str v) k) = outcome_of (match validate_string_says repr v name location kind with Some r => Some r | None => says end)).
  { intros k says H. destruct v; cbn [validate_string bind as_str validate_string_says]; try (rewrite CM, CO; reflexivity). now apply H. }
  assert (IN : validate_integer v = outcome_of (validate_integer_says repr v name location kind)).
  { unfold validate_integer, validate_integer_says. destruct (as_int v); auto. }
  assert (PI : validate_positive_integer v = outcome_of (validate_positive_integer_says repr v name location kind)).
  { unfold validate_positive_integer, validate_positive_integer_says, validate_integer_says. destruct (as_int v) as [n|]; [destruct (n <? 1); rewrite ?CO; auto|rewrite CM, CO; auto]. }
  assert (SP : validate_string_is_positive_integer v = outcome_of (validate_string_is_positive_integer_says repr v name location kind)).
  { unfold validate_string_is_positive_integer, validate_string_is_positive_integer_says. apply ST. intros s ->. cbv zeta. destruct (str_eqb s (lit "0")); [reflexivity|]. rewrite IW. destruct (existsb _ s); rewrite ?CO; reflexivity. }
  assert (SW : validate_string_is_whole_number v = outcome_of (validate_string_is_whole_number_says repr v name location kind)).
  { unfold validate_string_is_whole_number, validate_string_is_whole_number_says. apply ST. intros s ->. destruct (str_eqb s (lit "0")); [reflexivity|exact SP]. }
  assert (SD : forall dp, validate_string_is_decimal_dp v dp = outcome_of (validate_string_is_decimal_says repr v dp name location kind)).
  { intros dp. unfold validate_string_is_decimal_dp, validate_string_is_decimal, validate_string_is_decimal_says. destruct v; cbn [validate_string bind as_str validate_string_says]; try (rewrite CM, CO; reflexivity).
    destruct (Nat.eqb_spec (count_char 46 s) 1) as [C1|C1]; cbn [negb]; [|rewrite CO; reflexivity]. destruct (count1 s C1) as (a & b & Q & NA & NB). destruct (one_dot a b NA NB) as (_ & _ & S2). rewrite Q, S2.
    destruct (negb (str_isdigit a) || negb (str_isdigit b)); cbn [bind]; [rewrite CO; reflexivity|]. destruct (as_int dp) as [n|]; [|reflexivity].
    destruct (Z.ltb_spec n 0), (Z.leb_spec 4294967295 n); try lia; cbn [orb]; rewrite ?CO; try reflexivity. destruct (dp_match _ _); cbn [negb]; rewrite ?CO; reflexivity. }
  split; [exact IN|]. split; [destruct v; cbn [validate_boolean validate_boolean_says]; rewrite ?CO; reflexivity|]. split; [destruct v; cbn [validate_list validate_list_says]; rewrite ?CO; reflexivity|]. split; [destruct v; cbn [validate_dict validate_dict_says]; rewrite ?CO; reflexivity|].
  split; [exact PI|]. split; [unfold validate_whole_number, validate_whole_number_says; destruct (py_eq_int v 0); [reflexivity|exact PI]|].
  split.
  { intros n. unfold validate_hex_length, validate_hex_length_says. cbv zeta. cbn [as_int]. set (k := match kind with PNone => _ | _ => _ end). pose proof (proj1 (c72_same repr v name location k)) as SH.
    assert (VH : validate_hex v = outcome_of (validate_hex_says repr v name location k)) by (destruct (validate_hex v) as [[]|], (validate_hex_says repr v name location k) as [[? ?]|]; cbn in *; congruence). rewrite VH. clear VH SH.
    destruct (validate_hex_says repr v name location k) as [[e m]|] eqn:V; [reflexivity|]. cbn [bind]. pose proof (proj1 (c72_hex repr v name location k _) V) as [(_ & ? & ? & Q & _)|[(? & _ & _ & ? & Q & _)|[(? & ? & _ & _ & _ & _ & ? & ? & Q & _)|(s & -> & _)]]]; try discriminate.
    cbn [as_str bind]. destruct (Nat.eqb_spec (length s) (n * 2)), (Z.eqb_spec (Z.of_nat (length s)) (Z.of_nat n * 2)); try lia; cbn [negb]; rewrite ?CO; reflexivity. }
  split; [exact SP|]. split; [exact SW|]. split; [exact SD|]. split.
  { unfold validate_string_is_whole_number_or_decimal, validate_string_is_whole_number_or_decimal_says. rewrite SW. assert (D : validate_string_is_decimal v = validate_string_is_decimal_dp v PNone).
    { unfold validate_string_is_decimal_dp. cbn [as_int]. destruct (validate_string_is_decimal v) as [[]|] eqn:Q; [|reflexivity]. destruct v; try discriminate. reflexivity. }
    rewrite D, SD. destruct (validate_string_is_whole_number_says repr v name location kind) as [[? ?]|], (validate_string_is_decimal_says repr v PNone name location kind) as [[? ?]|]; reflexivity. }
  split; [unfold validate_string_is_date, validate_string_is_date_says; apply ST; intros s ->; destruct (date_match s); cbn [negb]; rewrite ?CO; reflexivity|].
  split.
  { intros lo hi. unfold validate_integer_domain, validate_integer_domain_says, validate_integer_says. cbv zeta. cbn [as_int]. destruct (as_int v) as [n|]; [|rewrite CM, CO; reflexivity]. rewrite Z.gtb_ltb.
    destruct (hi <? lo); [reflexivity|]. destruct (_ && _); [reflexivity|]. destruct (n <? lo); [reflexivity|]. rewrite Z.gtb_ltb. destruct (hi <? n); reflexivity. }
  split.
  { intros l l'. rewrite (proj1 c59_lists). unfold validate_list_contains_items_says. cbv zeta. set (m := fold_left _ l' []). pose proof (proj2 (missing_iff l l' m) eq_refl) as M. clearbody m.
    assert (forallb (fun x => str_in x l) l' = (Z.of_nat (length m) =? 0)) as ->.
    { induction M as [|x l0 m I M IH|x l0 m N M IH]; [reflexivity| |]; cbn [forallb].
      - apply str_in_In in I. rewrite I. exact IH.
      - destruct (str_in x l) eqn:Q; [apply str_in_In in Q; tauto|]. cbn [andb length]. symmetry. apply Z.eqb_neq. lia. }
    destruct (_ =? 0); reflexivity. }
  split; [intros x l; unfold validate_item_in_list, validate_item_in_list_says; destruct (str_in x l); reflexivity|].
  intros l l'. unfold validate_lists_are_identical, validate_lists_are_identical_says. destruct (negb _); reflexivity.
Qed.

End WithEnv.

Example ex94_texts : 
  validate_integer_says plain_repr (PStr (lit "7")) (Some (lit "n (a count)")) PNone (PStr (lit "integer")) =
    Some (TypeError, lit "For variable 'n' (a count), expected a 'integer', but received value '7', which has type 'str', not 'int'.") /\
  validate_hex_length_says plain_repr (PStr (lit "aabb")) (PInt 3) None PNone PNone =
    Some (ValueError, lit "Expected a 'hex_length_3_bytes', but received value 'aabb', whose length is 4 chars, not 6 chars.") /\
  @validate_string_is_decimal_says demo_env plain_repr (PStr (lit "1.2.3")) PNone None PNone (PStr (lit "integer")) = Some (TypeError, lit "Received value '1.2.3', which has 2 decimal points, not 1.") /\
  @validate_string_is_positive_integer_says demo_env plain_repr (PStr (lit "0")) None PNone PNone = Some (ValueError, lit "0 is not a positive number.") /\
  validate_integer_domain_says plain_repr (PInt 5) (PInt 1) (PInt 4) = Some (ValueError, paragraph [lit "Input is greater than the maximum value."; lit "- Maximum value: 4"; lit "- Input: 5"]) /\
  validate_list_contains_items_says [lit "a"; lit "b"] [lit "c"; lit "a"; lit "c"] =
    Some (ValueError, lit "Some items are not in the list." ++ [10] ++ lit "List items:" ++ [10] ++ lit "- a" ++ [10] ++ lit "- b" ++ [10] ++ lit "Items not found:" ++ [10] ++ lit "- c" ++ [10] ++ lit "- c").
Proof. repeat split; vm_compute; reflexivity. Qed.
(** The hypothesis UniOk holds of an environment, and the specifications have faults in them. *)
Example ex94_met : UniOk demo_env /\ @decimal demo_env plain_repr (PInt 2) (PStr (lit "1.5")) (Wrong ValueError (lit "which is not a valid 2-decimal-place decimal value.")) /\
  @digits demo_env plain_repr (PStr (lit "1x")) (Wrong ValueError (lit "where the chars at indices [1] (with values ?) are not digits.")) /\ @date demo_env (PStr (lit "today")) (Wrong ValueError (lit "which is not a valid YYYY-MM-DD date string.")).
Proof.
  assert (U : UniOk demo_env) by exact demo_uni. split; auto. split; [|split].
  - destruct (@decimal_report demo_env U plain_repr (PStr (lit "1.5")) (PInt 2) None PNone PNone) as (f & D & R). refine (eq_rect f _ D _ _).
    destruct D as [t N T|s k Q K N|a b Q NA NB D|a b Q D I|a b n Q D I L|a b n Q D I Q2 L|a b n d Q D I L N W]; try (elim (N _ eq_refl)); try (vm_compute in R; inversion R; fail).
    apply shown_written in W as ->. reflexivity.
  - destruct (@whole_digits_report demo_env plain_repr (PStr (lit "1x")) None PNone PNone) as (f & D & R). refine (eq_rect f _ D _ _).
    destruct D as [t N T|s l cs Q F NE CS|s Q F]; [elim (N _ eq_refl)| |vm_compute in R; inversion R].
    assert (QS : s = lit "1x") by (injection Q; auto). rewrite QS in *.
    assert (l = [1%nat]) as ->. { refine (proj1 (faults_where (fun c => negb (@char_isdigit demo_env c)) _ _ _ _) F). intros c. rewrite <- (@isdigit_iff demo_env). destruct (@char_isdigit demo_env c); cbn; split; congruence. }
    reflexivity.
  - destruct (@date_match_iff demo_env U (lit "today")) as [_ B]. apply (date_wrong _ (lit "today") eq_refl). intros D. apply B in D. discriminate.
Qed.
