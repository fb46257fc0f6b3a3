(** C72: the text of error messages. *)
From Coq Require Import String Lia.
From Verif Require Import PyBase Env PyNum Validate Spec ValidSpec Messages MessagesSpec Demo.
From Verif Require Import HexProofs C_Valid.
Open Scope Z_scope.

Section WithEnv.
Context {E : Env}.

Lemma split_nonempty : forall s, split_spaces s <> [].
Proof. induction s as [|c s IH]; [discriminate|]. cbn [split_spaces]. destruct (c =? 32); [discriminate|]. destruct (split_spaces s); [congruence|discriminate]. Qed.
Lemma join_split : forall s, join_spaces (split_spaces s) = s.
Proof.
  induction s as [|c s IH]; [reflexivity|]. cbn [split_spaces]. pose proof (split_nonempty s) as N. destruct (Z.eqb_spec c 32) as [->|].
  - destruct (split_spaces s) eqn:Q; [congruence|]. rewrite <- IH. reflexivity.
  - destruct (split_spaces s) as [|w ws] eqn:Q; [congruence|]. destruct ws as [|w2 ws]; rewrite <- IH; reflexivity.
Qed.
Lemma split_word : forall w, ~ In 32 w -> split_spaces w = [w].
Proof.
  induction w as [|c w IH]; intros N; [reflexivity|]. cbn [split_spaces]. rewrite IH by (intros I; apply N; now right). destruct (Z.eqb_spec c 32) as [->|]; [|reflexivity]. elim N; now left.
Qed.
Lemma split_words : forall w rest, ~ In 32 w -> split_spaces (w ++ [32] ++ rest) = w :: split_spaces rest.
Proof.
  induction w as [|c w IH]; intros rest N; [reflexivity|]. cbn [split_spaces app] in *. rewrite IH by (intros I; apply N; now right). destruct (Z.eqb_spec c 32) as [->|]; [|reflexivity]. elim N; now left.
Qed.
Lemma shown_quote : forall n q, shown_name n q <-> q = quote_first_word n.
Proof.
  assert (D : forall n q, shown_name n q -> q = quote_first_word n).
  { intros n q [w N|w rest N]; unfold quote_first_word; [rewrite (split_word w N); reflexivity|]. rewrite (split_words w rest N). cbn [hd tl length]. pose proof (split_nonempty rest) as K.
    destruct (Z.ltb_spec 1 (Z.of_nat (S (length (split_spaces rest))))) as [_|L]; [|destruct (split_spaces rest); [congruence|cbn [length] in L; lia]].
    rewrite join_split. rewrite <- !app_assoc. reflexivity. }
  intros n q; split; [apply D|]. intros ->.
  assert (C : ~ In 32 n \/ exists w rest, ~ In 32 w /\ n = w ++ [32] ++ rest).
  { induction n as [|c n [IH|(w & rest & IH & ->)]].
    - left. intros [].
    - destruct (Z.eq_dec c 32) as [->|K]; [right; exists [], n; split; [intros []|reflexivity]|]. left. intros [I|I]; auto.
    - right. destruct (Z.eq_dec c 32) as [->|K]; [exists [], (w ++ [32] ++ rest); split; [intros []|reflexivity]|]. exists (c :: w), rest. split; [intros [I|I]; auto|reflexivity]. }
  destruct C as [N|(w & rest & N & ->)].
  - pose proof (shown_word n N) as S. rewrite (D _ _ S) in S. exact S.
  - pose proof (shown_words w rest N) as S. rewrite (D _ _ S) in S. exact S.
Qed.

(** C72.  An error message says: where, for which variable, what was expected, the value received and the reason, each only if
    given, separated by commas, with a capital first letter. *)
Lemma c72_message : forall repr msg value name location kind m, build_error_msg repr msg value name location kind = Ok m <-> message repr msg value name location kind m.
Proof.
  intros repr msg value name location kind m. unfold build_error_msg, message. cbv zeta.
  set (p0 := match location with PNone => [] | _ => lit "in location " ++ repr location ++ lit ", " end).
  set (v0 := match name with None => [] | Some n => lit "for variable " ++ quote_first_word n ++ lit ", " end).
  set (e0 := match kind with PNone => [] | _ => lit "expected a " ++ repr kind ++ lit ", but " end).
  set (r0 := match msg with [] => [] | _ => lit ", " ++ msg end).
  assert (Q : (match msg with
     | [] => match kind with PNone => match name with None => match location with PNone => [] | _ => [] ++ lit "in location " ++ repr location ++ lit ", " end
         | Some name => match location with PNone => [] | _ => [] ++ lit "in location " ++ repr location ++ lit ", " end ++ lit "for variable " ++ quote_first_word name ++ lit ", " end
       | _ => match name with None => match location with PNone => [] | _ => [] ++ lit "in location " ++ repr location ++ lit ", " end
         | Some name => match location with PNone => [] | _ => [] ++ lit "in location " ++ repr location ++ lit ", " end ++ lit "for variable " ++ quote_first_word name ++ lit ", " end ++ lit "expected a " ++ repr kind ++ lit ", but " end ++ lit "received value " ++ repr value
     | _ => (match kind with PNone => match name with None => match location with PNone => [] | _ => [] ++ lit "in location " ++ repr location ++ lit ", " end
         | Some name => match location with PNone => [] | _ => [] ++ lit "in location " ++ repr location ++ lit ", " end ++ lit "for variable " ++ quote_first_word name ++ lit ", " end
       | _ => match name with None => match location with PNone => [] | _ => [] ++ lit "in location " ++ repr location ++ lit ", " end
         | Some name => match location with PNone => [] | _ => [] ++ lit "in location " ++ repr location ++ lit ", " end ++ lit "for variable " ++ quote_first_word name ++ lit ", " end ++ lit "expected a " ++ repr kind ++ lit ", but " end ++ lit "received value " ++ repr value) ++ lit ", " ++ msg end)
    = p0 ++ v0 ++ e0 ++ lit "received value " ++ repr value ++ r0).
  { subst p0 v0 e0 r0. destruct location, name, kind, msg; cbn [app]; rewrite <- ?app_assoc, ?app_nil_r; reflexivity. }
  rewrite Q. clear Q.
  assert (UNI : forall p v e r, place repr location p -> variable name v -> expectation repr kind e -> reason msg r -> p = p0 /\ v = v0 /\ e = e0 /\ r = r0).
  { intros p v e r P V X R. subst p0 v0 e0 r0. repeat split.
    - destruct P as [[-> ->]|[N ->]]; [reflexivity|]. destruct location; try reflexivity. now elim N.
    - destruct V as [[-> ->]|(n & q & -> & S & ->)]; [reflexivity|]. apply shown_quote in S as ->. reflexivity.
    - destruct X as [[-> ->]|[N ->]]; [reflexivity|]. destruct kind; try reflexivity. now elim N.
    - destruct R as [[-> ->]|[N ->]]; [reflexivity|]. destruct msg; [now elim N|reflexivity]. }
  assert (HAVE : place repr location p0 /\ variable name v0 /\ expectation repr kind e0 /\ reason msg r0).
  { subst p0 v0 e0 r0. split; [|split; [|split]].
    - destruct location; [left; auto|right; split; [discriminate|reflexivity]..].
    - destruct name as [n|]; [right|left; auto]. exists n, (quote_first_word n). split; auto. split; [now apply shown_quote|reflexivity].
    - destruct kind; [left; auto|right; split; [discriminate|reflexivity]..].
    - destruct msg; [left; auto|right; split; [discriminate|reflexivity]]. }
  assert (ST : exists c big rest, p0 ++ v0 ++ e0 ++ lit "received value " ++ repr value ++ r0 = c :: rest /\ (lit big = [capitalize_char c]) /\
     exists small, lit small = [c] /\ In (small, big) [("i", "I"); ("f", "F"); ("e", "E"); ("r", "R")]%string).
  { subst p0 v0 e0. destruct location as [|b|z|f|s|l|d]; [|
      eexists 105, "I"%string, _; split; [reflexivity|split; [reflexivity|exists "i"%string; split; [reflexivity|cbn; auto]]]..].
    destruct name as [n|]; [eexists 102, "F"%string, _; split; [reflexivity|split; [reflexivity|exists "f"%string; split; [reflexivity|cbn; auto]]]|].
    destruct kind; [eexists 114, "R"%string, _; split; [reflexivity|split; [reflexivity|exists "r"%string; split; [reflexivity|cbn; auto]]]|
      eexists 101, "E"%string, _; split; [reflexivity|split; [reflexivity|exists "e"%string; split; [reflexivity|cbn; auto]]]..]. }
  destruct ST as (c & big & rest & SE & BG & small & SM & IN). rewrite SE. split.
  - intros H. injection H as <-. exists p0, v0, e0, r0. destruct HAVE as (A1 & A2 & A3 & A4). repeat (split; [assumption|]). exists small, big. split; auto. exists rest. rewrite SE, SM, BG. auto.
  - intros (p & v & e & r & P & V & X & R & S & B & I2 & rest2 & S2 & ->). destruct (UNI _ _ _ _ P V X R) as (-> & -> & -> & ->). rewrite SE in S2.
    f_equal. cbn [In] in I2. cbn [In] in IN.
    repeat (destruct I2 as [I2|I2]; [injection I2 as <- <-; cbn in S2; injection S2 as -> ->; reflexivity|]). destruct I2.
Qed.
(** C72.  Building an error message never fails. *)
Lemma c72_total : forall repr msg value name location kind, exists m, build_error_msg repr msg value name location kind = Ok m.
Proof.
  intros. unfold build_error_msg. cbv zeta. destruct location, name, kind, msg; eexists; reflexivity.
Qed.

Lemma complain_iff : forall repr e msg value name location kind r, complain repr e msg value name location kind = r <-> exists m, r = Some (e, m) /\ message repr msg value name location kind m.
Proof.
  intros. unfold complain. destruct (c72_total repr msg value name location kind) as (m & M). rewrite M. split.
  - intros <-. exists m. split; auto. apply c72_message. auto.
  - intros (m' & -> & M'). apply c72_message in M'. congruence.
Qed.
Lemma separated_ints : forall l, comma_ints l = separated (lit ", ") (map (fun i => int_str (Z.of_nat i)) l).
Proof.
  induction l as [|i [|j l] IH]; [reflexivity| |].
  - cbn [comma_ints separated map flat_map]. now rewrite app_nil_r.
  - change (comma_ints (i :: j :: l)) with (int_str (Z.of_nat i) ++ lit ", " ++ comma_ints (j :: l)). rewrite IH. cbn [separated map flat_map]. rewrite <- !app_assoc. reflexivity.
Qed.
Lemma separated_join : forall l, comma_join l = separated (lit ",") l.
Proof.
  induction l as [|i [|j l] IH]; [reflexivity| |].
  - cbn [comma_join separated flat_map]. now rewrite app_nil_r.
  - change (comma_join (i :: j :: l)) with (i ++ lit "," ++ comma_join (j :: l)). rewrite IH. cbn [separated flat_map]. rewrite <- !app_assoc. reflexivity.
Qed.
Lemma char_in_hex_range : forall c, char_in c hex_digits = true <-> (48 <= c <= 57 \/ 97 <= c <= 102).
Proof.
  intros c. rewrite char_in_In. change hex_digits with [48;49;50;51;52;53;54;55;56;57;97;98;99;100;101;102]. cbn [In]. lia.
Qed.
Lemma sorted_filter : forall (f : nat -> bool) n k a b l1 l2 l3, filter f (seq k n) = l1 ++ [a] ++ l2 ++ [b] ++ l3 -> (a < b)%nat.
Proof.
  intros f. induction n as [|n IH]; intros k a b l1 l2 l3 H; [destruct l1; discriminate|]. cbn [seq filter] in H. destruct (f k); [|exact (IH _ _ _ _ _ _ H)].
  destruct l1 as [|x l1]; cbn [app] in H; injection H as ? H; [|exact (IH _ _ _ _ _ _ H)]. subst a.
  assert (I : In b (filter f (seq (S k) n))) by (rewrite H; apply in_or_app; right; now left). apply filter_In in I as [I _]. apply in_seq in I. lia.
Qed.
Lemma faults_model : forall s, hex_faults s (indices_where (fun c => negb (char_in c hex_digits)) s).
Proof.
  intros s. split; [|intros a b l1 l2 l3 H; eapply sorted_filter; exact H].
  intros i. unfold indices_where. rewrite filter_In, in_seq, negb_true_iff, <- not_true_iff_false, char_in_hex_range. unfold char_at. split.
  - intros [L N]. exists (nth i s 0). split; auto. apply nth_error_nth'. lia.
  - intros (c & A & N). rewrite (nth_error_nth _ _ 0 A). split; auto. assert (i < length s)%nat by (apply nth_error_Some; congruence). lia.
Qed.
Lemma sorted_unique : forall l l' : list nat, (forall i, In i l <-> In i l') ->
  (forall a b l1 l2 l3, l = l1 ++ [a] ++ l2 ++ [b] ++ l3 -> (a < b)%nat) -> (forall a b l1 l2 l3, l' = l1 ++ [a] ++ l2 ++ [b] ++ l3 -> (a < b)%nat) -> l = l'.
Proof.
  assert (H0 : forall (x : nat) l, (forall a b l1 l2 l3, x :: l = l1 ++ [a] ++ l2 ++ [b] ++ l3 -> (a < b)%nat) ->
    (forall y, In y l -> (x < y)%nat) /\ (forall a b l1 l2 l3, l = l1 ++ [a] ++ l2 ++ [b] ++ l3 -> (a < b)%nat)).
  { intros x l H. split.
    - intros y I. apply in_split in I as (l2 & l3 & ->). apply (H x y [] l2 l3). reflexivity.
    - intros a b l1 l2 l3 ->. apply (H a b (x :: l1) l2 l3). reflexivity. }
  induction l as [|x l IH]; intros [|y l'] I S S'; [reflexivity| | |].
  - elim (proj2 (I y)). now left.
  - elim (proj1 (I x)). now left.
  - apply H0 in S as [SX S]. apply H0 in S' as [SY S'].
    assert (Q : x = y). { destruct (proj1 (I x) (or_introl eq_refl)) as [Q|Q]; auto. destruct (proj2 (I y) (or_introl eq_refl)) as [R|R]; auto. apply SX in R. apply SY in Q. lia. }
    subst y. f_equal. apply IH; auto. intros i. split; intros J.
    + destruct (proj1 (I i) (or_intror J)) as [Q|Q]; auto. subst i. apply SX in J. lia.
    + destruct (proj2 (I i) (or_intror J)) as [Q|Q]; auto. subst i. apply SY in J. lia.
Qed.
Lemma faults_fun : forall s l, hex_faults s l <-> l = indices_where (fun c => negb (char_in c hex_digits)) s.
Proof.
  intros s l. split; [|intros ->; apply faults_model]. intros [A B]. destruct (faults_model s) as [A' B']. apply sorted_unique; auto. intros i. rewrite A, A'. reflexivity.
Qed.

(** C72.  What validate_hex says.  Not a string: TypeError, with the type.  An odd length: ValueError, with the length.  Otherwise, if there are characters that are not
    hex digits: ValueError, with exactly their positions and the characters (a newline shown as \n).  Otherwise it returns.  The exception is that of C11's model. *)
Lemma c72_hex : forall repr v name location kind r, validate_hex_says repr v name location kind = r <->
  ((forall s, v <> PStr s) /\ exists m t, r = Some (TypeError, m) /\ type_called v t /\ message repr (lit "which has type '" ++ lit t ++ lit "', not 'str'.") v name location kind m) \/
  (exists s, v = PStr s /\ Nat.odd (length s) = true /\ exists m, r = Some (ValueError, m) /\
     message repr (lit "whose length is not an even number (" ++ int_str (Z.of_nat (length s)) ++ lit " chars).") v name location kind m) \/
  (exists s l, v = PStr s /\ Nat.odd (length s) = false /\ hex_faults s l /\ l <> [] /\ exists m cs, r = Some (ValueError, m) /\
     Forall2 (fun i c => exists x, char_at s i x /\ c = if x =? 10 then [92; 110] else [x]) l cs /\
     message repr (lit "where the chars at indices [" ++ separated (lit ", ") (map (fun i => int_str (Z.of_nat i)) l) ++ lit "] (with values '" ++ separated (lit ",") cs ++ lit "') are not hex chars.") v name location kind m) \/
  (exists s, v = PStr s /\ Nat.odd (length s) = false /\ hex_faults s [] /\ r = None).
Proof.
  intros repr v name location kind r. unfold validate_hex_says. destruct v as [|b|z|f|s|l|d]; [| | | | |..];
    try (unfold validate_string_says; cbv beta iota; match goal with |- match complain ?a ?b ?c ?d ?e ?f ?g with _ => _ end = _ <-> _ => destruct (proj1 (complain_iff a b c d e f g _) eq_refl) as (m & M & MM); rewrite M end;
      split; [intros <-; left; split; [discriminate|eexists m, _; split; [reflexivity|split; [constructor|exact MM]]]|intros [(_ & m' & t & -> & TC & MM')|[(? & Q & _)|[(? & ? & Q & _)|(? & Q & _)]]]; [|discriminate..]; inversion TC; subst t; rewrite <- M; apply complain_iff; exists m'; split; [reflexivity|exact MM']]).
  cbn [validate_string_says].
  assert (OD : negb (Z.of_nat (length s) mod 2 =? 0) = Nat.odd (length s)).
  { rewrite <- (Z.bit0_mod (Z.of_nat (length s))). rewrite Z.bit0_odd. rewrite <- (Nat2Z.id (length s)) at 2. rewrite <- Nat.negb_even. rewrite <- Z.negb_even.
    rewrite Nat2Z.id. destruct (Z.even (Z.of_nat (length s))) eqn:A, (Nat.even (length s)) eqn:B; try reflexivity; exfalso.
    - apply Z.even_spec in A as (k & A). assert (C : Nat.even (length s) = true) by (apply Nat.even_spec; exists (Z.to_nat k); lia). congruence.
    - apply Nat.even_spec in B as (k & B). assert (C : Z.even (Z.of_nat (length s)) = true) by (apply Z.even_spec; exists (Z.of_nat k); lia). congruence. }
  rewrite OD. destruct (Nat.odd (length s)) eqn:O.
  - rewrite complain_iff. split; [intros H; right; left; eauto|]. intros [(N & _)|[(s' & Q & _ & H)|[(s' & ? & Q & O' & _)|(s' & Q & O' & _)]]]; [elim (N s); auto|injection Q as <-; exact H|injection Q as <-; congruence..].
  - cbv zeta. set (l := indices_where (fun c => negb (char_in c hex_digits)) s). pose proof (proj2 (faults_fun s l) eq_refl) as FL.
    set (cs := map (fun i => let c := nth i s 0 in if c =? 10 then [92; 110] else [c]) l).
    assert (CS : forall cs', Forall2 (fun i c => exists x, char_at s i x /\ c = if x =? 10 then [92; 110] else [x]) l cs' <-> cs' = cs).
    { assert (G : forall i, In i l -> char_at s i (nth i s 0)). { intros i I. apply (proj1 FL) in I as (c & A & _). unfold char_at in *. rewrite (nth_error_nth _ _ 0 A). exact A. }
      subst cs. clearbody l. clear FL. induction l as [|i l IH]; intros cs'.
      - split; [inversion 1; auto|intros ->; constructor].
      - split.
        + inversion 1 as [|? c ? cs2 (x & A & X) R]; subst. cbn [map]. f_equal; [|apply IH; auto; intros; apply G; now right]. unfold char_at in A. now rewrite (nth_error_nth _ _ 0 A).
        + intros ->. constructor; [exists (nth i s 0); split; [apply G; now left|reflexivity]|]. apply IH; auto. intros; apply G; now right. }
    destruct (Z.ltb_spec 0 (Z.of_nat (length l))) as [P|P].
    + assert (LN : l <> []) by (intros Q; rewrite Q in P; cbn in P; lia). rewrite complain_iff.
      assert (TX : forall m, message repr (lit "where the chars at indices " ++ show_indices l ++ lit " (with values '" ++ comma_join cs ++ lit "') are not hex chars.") (PStr s) name location kind m <->
        message repr (lit "where the chars at indices [" ++ separated (lit ", ") (map (fun i => int_str (Z.of_nat i)) l) ++ lit "] (with values '" ++ separated (lit ",") cs ++ lit "') are not hex chars.") (PStr s) name location kind m).
      { intros m. unfold show_indices. rewrite separated_ints, separated_join. rewrite <- !app_assoc. reflexivity. }
      split.
      * intros (m & -> & M). right; right; left. exists s, l. split; auto. split; auto. split; auto. split; auto. exists m, cs. split; auto. split; [now apply CS|]. now apply TX.
      * intros [(N & _)|[(s' & Q & O' & _)|[(s' & l' & Q & _ & F & _ & m & cs' & -> & FC & M)|(s' & Q & _ & F & _)]]]; [elim (N s); auto|injection Q as <-; congruence| |].
        -- injection Q as <-. apply faults_fun in F. fold l in F. subst l'. apply CS in FC as ->. exists m. split; auto. now apply TX.
        -- injection Q as <-. apply faults_fun in F. elim LN. symmetry. exact F.
    + assert (LN : l = []) by (destruct l; [reflexivity|cbn [length] in P; lia]). split.
      * intros <-. right; right; right. exists s. rewrite <- LN at 1. auto.
      * intros [(N & _)|[(s' & Q & O' & _)|[(s' & l' & Q & _ & F & NE & _)|(s' & Q & _ & F & ->)]]]; [elim (N s); auto|injection Q as <-; congruence| |reflexivity].
        injection Q as <-. apply faults_fun in F. elim NE. rewrite F. exact LN.
Qed.


Lemma scan_iff : forall s line index r, printable_scan s line index = r <->
  (Forall printable_char s /\ r = None) \/
  (exists c lines this rest, s = flat_map (fun l => l ++ [10]) lines ++ this ++ [c] ++ rest /\ Forall (fun l => Forall printable_char l /\ ~ In 10 l) (this :: lines) /\ ~ printable_char c /\
     r = Some (line + Z.of_nat (length lines), (match lines with [] => index | _ => 0 end) + Z.of_nat (length this) + 1, c)).
Proof.
  assert (P10 : printable_char 10) by (unfold printable_char; auto).
  assert (FN : forall c lines this rest, ~ printable_char c -> ~ Forall printable_char (flat_map (fun l => l ++ [10]) lines ++ this ++ [c] ++ rest)).
  { intros c lines this rest N F. apply Forall_app in F as [_ F]. apply Forall_app in F as [_ F]. inversion F; auto. }
  (* existence by induction, uniqueness from the two descriptions being exclusive and deterministic *)
  assert (EX : forall s line index,
    (Forall printable_char s /\ printable_scan s line index = None) \/
    (exists c lines this rest, s = flat_map (fun l => l ++ [10]) lines ++ this ++ [c] ++ rest /\ Forall (fun l => Forall printable_char l /\ ~ In 10 l) (this :: lines) /\ ~ printable_char c /\
      printable_scan s line index = Some (line + Z.of_nat (length lines), (match lines with [] => index | _ => 0 end) + Z.of_nat (length this) + 1, c))).
  { induction s as [|c s IH]; intros line index; [left; split; [constructor|reflexivity]|]. cbn [printable_scan]. cbv zeta.
    destruct (char_in c permitted_data_characters) eqn:PC; cbn [negb].
    - apply permitted_printable in PC. destruct (Z.eqb_spec c 10) as [->|N10].
      + destruct (IH (line + 1) 0) as [[F Q]|(c' & lines & this & rest & -> & F & N & Q)]; [left; split; auto|]. right. exists c', ([] :: lines), this, rest. split; [reflexivity|].
        split; [|split; [exact N|]]. { inversion F; subst. constructor; [assumption|]. constructor; [|assumption]. split; [constructor|intros []]. }
        rewrite Q. replace (line + Z.of_nat (length ([] :: lines))) with (line + 1 + Z.of_nat (length lines)) by (cbn [length]; lia). destruct lines; reflexivity.
      + destruct (IH line (index + 1)) as [[F Q]|(c' & lines & this & rest & -> & F & N & Q)]; [left; split; auto|]. right. destruct lines as [|l lines].
        * exists c', [], (c :: this), rest. split; [reflexivity|]. split; [|split; [exact N|]].
          { inversion F as [|? ? [F1 F2] F3]; subst. constructor; [|constructor]. split; [constructor; auto|intros [A|A]; auto]. }
          rewrite Q. replace (index + Z.of_nat (length (c :: this)) + 1) with (index + 1 + Z.of_nat (length this) + 1) by (cbn [length]; lia). reflexivity.
        * exists c', ((c :: l) :: lines), this, rest. split; [reflexivity|]. split; [|split; [exact N|]].
          { inversion F as [|? ? F0 F3]; subst. inversion F3 as [|? ? [F1 F2] F4]; subst. constructor; [assumption|]. constructor; [|assumption]. split; [constructor; auto|intros [A|A]; auto]. }
          rewrite Q. reflexivity.
    - right. exists c, [], [], s. split; [reflexivity|]. split; [constructor; [split; [constructor|intros []]|constructor]|]. split; [intros A; apply permitted_printable in A; congruence|].
      cbn [length]. replace (line + Z.of_nat 0) with line by lia. replace (index + Z.of_nat 0 + 1) with (index + 1) by lia. reflexivity. }
  assert (DET : forall c lines this rest c' lines' this' rest',
    flat_map (fun l => l ++ [10]) lines ++ this ++ [c] ++ rest = flat_map (fun l => l ++ [10]) lines' ++ this' ++ [c'] ++ rest' ->
    Forall (fun l => Forall printable_char l /\ ~ In 10 l) (this :: lines) -> Forall (fun l => Forall printable_char l /\ ~ In 10 l) (this' :: lines') -> ~ printable_char c -> ~ printable_char c' ->
    c = c' /\ lines = lines' /\ this = this').
  { assert (LINE : forall (a b : pystr) x y (u v : pystr), Forall printable_char a /\ ~ In 10 a -> Forall printable_char b /\ ~ In 10 b -> (x = 10 \/ ~ printable_char x) -> (y = 10 \/ ~ printable_char y) ->
      a ++ x :: u = b ++ y :: v -> a = b /\ x = y /\ u = v).
    { induction a as [|p a IH]; intros b x y u v [FA NA] [FB NB] X Y Q.
      - destruct b as [|q b]; [injection Q; auto|]. exfalso. injection Q as -> _. inversion FB; subst. destruct X as [->|X]; [apply NB; now left|auto].
      - destruct b as [|q b]. { exfalso. injection Q as -> _. inversion FA; subst. destruct Y as [->|Y]; [apply NA; now left|auto]. }
        injection Q as -> Q. destruct (IH b x y u v) as (-> & -> & ->); auto.
        + inversion FA; subst. split; auto. intros A; apply NA; now right.
        + inversion FB; subst. split; auto. intros A; apply NB; now right. }
    intros c lines. induction lines as [|l lines IH]; intros this rest c' lines' this' rest' Q F F' N N'.
    - inversion F as [|? ? FT _]; subst. destruct lines' as [|l' lines']; cbn [flat_map app] in Q.
      + inversion F' as [|? ? FT' _]; subst. destruct (LINE _ _ _ _ _ _ FT FT' (or_intror N) (or_intror N') Q) as (-> & -> & _). auto.
      + exfalso. inversion F' as [|? ? FT' F2]; subst. inversion F2 as [|? ? FL _]; subst. rewrite <- !app_assoc in Q. cbn [app] in Q. destruct (LINE _ _ _ _ _ _ FT FL (or_intror N) (or_introl eq_refl) Q) as (_ & -> & _). auto.
    - inversion F as [|? ? FT F1]; subst. inversion F1 as [|? ? FL F2]; subst. destruct lines' as [|l' lines']; cbn [flat_map] in Q; rewrite <- !app_assoc in Q; cbn [app] in Q.
      + exfalso. inversion F' as [|? ? FT' _]; subst. cbn [flat_map app] in Q. destruct (LINE _ _ _ _ _ _ FL FT' (or_introl eq_refl) (or_intror N') Q) as (_ & <- & _). auto.
      + inversion F' as [|? ? FT' F1']; subst. inversion F1' as [|? ? FL' F2']; subst.
        destruct (LINE _ _ _ _ _ _ FL FL' (or_introl eq_refl) (or_introl eq_refl) Q) as (-> & _ & Q'). destruct (IH this rest c' lines' this' rest') as (-> & -> & ->); auto. }
  intros s line index r. split.
  - intros <-. apply EX.
  - destruct (EX s line index) as [[F Q]|(c & lines & this & rest & S & F & N & Q)]; intros [[F' ->]|(c' & lines' & this' & rest' & S' & F2 & N' & ->)]; auto.
    + exfalso. subst s. exact (FN _ _ _ _ N' F).
    + exfalso. subst s. exact (FN _ _ _ _ N F').
    + rewrite S in S'. destruct (DET _ _ _ _ _ _ _ _ S' F F2 N N') as (-> & -> & ->). exact Q.
Qed.
(** C72.  What validate_string_is_printable_ascii says about a string: nothing if all characters are permitted; otherwise ValueError, with the line and the position in
    it of the first character that is not, this character and its code.  About another value: TypeError (without the name and location given). *)
Lemma c72_printable : forall repr v name location kind r, validate_string_is_printable_ascii_says repr v name location kind = r <->
  ((forall s, v <> PStr s) /\ exists m t, r = Some (TypeError, m) /\ type_called v t /\ message repr (lit "which has type '" ++ lit t ++ lit "', not 'str'.") v None PNone (PStr (lit "string")) m) \/
  (exists s, v = PStr s /\ Forall printable_char s /\ r = None) \/
  (exists s line index c m, v = PStr s /\ first_unprintable s line index c /\ r = Some (ValueError, m) /\
     message repr (lit "Line " ++ int_str line ++ lit ", index " ++ int_str index ++ lit ": Character '" ++ [c] ++ lit "' (ord=" ++ int_str c ++
       lit ") is not in the list of permitted data characters.") v name location kind m).
Proof.
  intros repr v name location kind r. unfold validate_string_is_printable_ascii_says. destruct v as [|b|z|f|s|l|d]; [| | | | |..];
    try (unfold validate_string_says; cbv beta iota; match goal with |- match complain ?a ?b ?c ?d ?e ?f ?g with _ => _ end = _ <-> _ => destruct (proj1 (complain_iff a b c d e f g _) eq_refl) as (m & M & MM); rewrite M end;
      split; [intros <-; left; split; [discriminate|eexists m, _; split; [reflexivity|split; [constructor|exact MM]]]|intros [(_ & m' & t & -> & TC & MM')|[(? & Q & _)|(? & ? & ? & ? & ? & Q & _)]]; [|discriminate..]; inversion TC; subst t; rewrite <- M; apply complain_iff; exists m'; split; [reflexivity|exact MM']]).
  cbn [validate_string_says]. destruct (printable_scan s 0 0) as [[[line index] c]|] eqn:SC.
  - pose proof (proj1 (scan_iff s 0 0 _) SC) as [[_ Q]|(c' & lines & this & rest & S & F & N & Q)]; [discriminate|]. assert (Q1 := Q). injection Q1 as Q1 Q2 Q3.
    assert (FU : first_unprintable s line index c). { exists lines, this, rest. subst c'. split; auto. split; auto. split; auto. split; [lia|]. subst index. destruct lines; lia. }
    rewrite complain_iff. split.
    + intros (m & -> & M). right; right. exists s, line, index, c, m. auto.
    + intros [(H & _)|[(s' & H & F' & _)|(s' & l2 & i2 & c2 & m & H & FU2 & -> & M)]]; [elim (H s); auto| |].
      * exfalso. injection H as <-. assert (X : printable_scan s 0 0 = None) by (apply scan_iff; auto). congruence.
      * injection H as <-. exists m. split; auto. destruct FU2 as (ls2 & t2 & r2 & S2 & F2 & N2 & -> & ->).
        assert (X : printable_scan s 0 0 = Some (0 + Z.of_nat (length ls2), (match ls2 with [] => 0 | _ => 0 end) + Z.of_nat (length t2) + 1, c2)) by (apply scan_iff; right; exists c2, ls2, t2, r2; auto).
        rewrite SC in X. injection X as X1 X2 X3. subst c2. replace (Z.of_nat (length ls2)) with line in M by lia. replace (Z.of_nat (length t2) + 1) with index in M by (destruct ls2; lia). exact M.
  - pose proof (proj1 (scan_iff s 0 0 _) SC) as [[F _]|(c' & lines & this & rest & S & F & N & Q)]; [|discriminate]. split.
    + intros <-. right; left. eauto.
    + intros [(H & _)|[(s' & H & F' & ->)|(s' & l2 & i2 & c2 & m & H & (ls2 & t2 & r2 & S2 & F2 & N2 & _) & -> & M)]]; [elim (H s); auto|reflexivity|].
      exfalso. injection H as <-. subst s. apply Forall_app in F as [_ F]. apply Forall_app in F as [_ F]. inversion F; auto.
Qed.
(** C72.  The validators with messages raise exactly what the validators of the model without messages raise. *)
Lemma c72_same : forall repr v name location kind,
  option_map fst (validate_hex_says repr v name location kind) = match validate_hex v with Ok _ => None | Err e => Some e end /\
  option_map fst (validate_string_is_printable_ascii_says repr v name location kind) = match validate_string_is_printable_ascii v with Ok _ => None | Err e => Some e end.
Proof.
  intros repr v name location kind. split.
  - destruct (proj1 (c72_hex repr v name location kind _) eq_refl) as [(N & m & t & -> & _)|[(s & -> & O & m & -> & _)|[(s & l & -> & O & F & NE & m & cs & -> & _)|(s & -> & O & F & ->)]]].
    + destruct v; try reflexivity. elim (N s); auto.
    + unfold validate_hex. cbn [validate_string bind as_str]. replace (length s mod 2 =? 0)%nat with false; [reflexivity|]. symmetry. apply Nat.eqb_neq. apply Nat.odd_spec in O as (k & ->). rewrite Nat.add_comm, Nat.mul_comm, Nat.mod_add by lia. discriminate.
    + unfold validate_hex. cbn [validate_string bind as_str]. destruct l as [|i l]; [congruence|]. destruct (proj1 (proj1 F i)) as (c & A & N); [now left|].
      replace (existsb _ s) with true; [destruct (negb _); reflexivity|]. symmetry. apply existsb_exists. exists c. split; [eapply nth_error_In; exact A|]. apply negb_true_iff. apply not_true_iff_false. rewrite char_in_hex_range. auto.
    + unfold validate_hex. cbn [validate_string bind as_str]. replace (length s mod 2 =? 0)%nat with true; [cbn [negb]|symmetry; apply Nat.eqb_eq; apply (f_equal negb) in O; rewrite Nat.negb_odd in O; apply Nat.even_spec in O as (k & ->); rewrite Nat.mul_comm; apply Nat.mod_mul; lia].
      replace (existsb _ s) with false; [reflexivity|]. symmetry. apply not_true_iff_false. intros X. apply existsb_exists in X as (c & I & N). apply In_nth_error in I as (i & I).
      elim (proj2 (proj1 F i)). exists c. split; auto. rewrite <- char_in_hex_range. apply negb_true_iff in N. congruence.
  - destruct (proj1 (c72_printable repr v name location kind _) eq_refl) as [(N & m & t & -> & _)|[(s & -> & F & ->)|(s & line & index & c & m & -> & (ls & t & rest & S & _ & N & _) & -> & _)]].
    + destruct v; try reflexivity. elim (N s); auto.
    + rewrite (proj1 (c53_printable s) F). reflexivity.
    + rewrite (proj2 (c53_printable s)); [reflexivity|]. intros F. subst s. apply Forall_app in F as [_ F]. apply Forall_app in F as [_ F]. inversion F; auto.
Qed.

End WithEnv.

(** Beside C72: a name with a description, a place and a reason; two faults in a hex string; the second line of a text. *)
Example ex72_message : build_error_msg plain_repr (lit "which is less than 1.") (PInt 0) (Some (lit "n (the hex length)")) (PStr (lit "f")) (PStr (lit "integer")) =
  Ok (lit "In location 'f', for variable 'n' (the hex length), expected a 'integer', but received value 0, which is less than 1.") /\
  build_error_msg plain_repr [] (PInt 0) None PNone PNone = Ok (lit "Received value 0").
Proof. split; vm_compute; reflexivity. Qed.
Example ex72_hex : validate_hex_says plain_repr (PStr (lit "0x1" ++ [10])) (Some (lit "key")) PNone (PStr (lit "hex")) =
  Some (ValueError, lit "For variable 'key', expected a 'hex', but received value '0x1" ++ [10] ++ lit "', where the chars at indices [1, 3] (with values 'x,\n') are not hex chars.").
Proof. vm_compute. reflexivity. Qed.
Example ex72_printable : exists m, validate_string_is_printable_ascii_says plain_repr (PStr (lit "ab" ++ [10] ++ lit "c" ++ [233])) None PNone PNone = Some (ValueError, m) /\
  first_unprintable (lit "ab" ++ [10] ++ lit "c" ++ [233]) 1 2 233.
Proof.
  eexists. split; [vm_compute; reflexivity|]. exists [lit "ab"], (lit "c"), []. split; [reflexivity|]. split; [|split; [unfold printable_char; lia|split; reflexivity]].
  assert (P : forall l, Forall (fun c => 97 <= c <= 122) l -> Forall printable_char l /\ ~ In 10 l).
  { intros l F. rewrite Forall_forall in F. split; [apply Forall_forall; intros c I; apply F in I; unfold printable_char; lia|intros I; apply F in I; lia]. }
  constructor; [|constructor; [|constructor]]; apply P; apply Forall_forall; intros c I; cbn in I; lia.
Qed.
