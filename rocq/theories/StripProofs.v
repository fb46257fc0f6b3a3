(** str.strip() *)
From Coq Require Import String Lia.
From Verif Require Import PyBase Env PyNum Validate Basic Spec EnvOk TxInput TxOutput Tx Create Cli CliSpec.
From Verif Require Import NumLemmas HexProofs CliProofs.
Open Scope Z_scope.

Section WithEnv.
Context {E : Env}.

Lemma blank_space : forall c, is_strip_space c = true <-> blank c.
Proof.
  intros c. unfold is_strip_space, blank. destruct (Z.ltb_spec c 128) as [L|L].
  - rewrite Bool.orb_true_iff, !Bool.andb_true_iff, !Z.leb_le. intuition lia.
  - split; [auto|]. intros [H|[H|[_ H]]]; [lia|lia|exact H].
Qed.
Lemma blank_not : forall c, is_strip_space c = false <-> ~ blank c.
Proof. intros c. rewrite <- blank_space. destruct (is_strip_space c); split; try congruence; intuition congruence. Qed.

Lemma lstrip_split : forall s, exists b, s = b ++ lstrip_ws s /\ Forall blank b /\ forall c r, lstrip_ws s = c :: r -> ~ blank c.
Proof.
  induction s as [|c s (b & E1 & B & N)]; [exists []; repeat split; auto; discriminate|]. cbn [lstrip_ws]. destruct (is_strip_space c) eqn:S.
  - exists (c :: b). split; [cbn [app]; congruence|]. split; auto. constructor; auto. apply blank_space; auto.
  - exists []. split; auto. split; auto. intros c' r H. injection H as <- <-. apply blank_not; auto.
Qed.

Lemma strip_stripped : forall s, stripped s (strip s).
Proof.
  intros s. unfold strip. destruct (lstrip_split s) as (b & E1 & B & N). set (m := lstrip_ws s) in *. destruct (lstrip_split (rev m)) as (a & E2 & A & N2). set (k := lstrip_ws (rev m)) in *.
  assert (M : m = rev k ++ rev a) by (rewrite <- rev_app_distr, <- E2, rev_involutive; auto).
  exists b, (rev a). split; [congruence|]. split; auto. split; [apply Forall_rev; auto|]. split.
  - intros c r H. apply (N c (r ++ rev a)). rewrite M, H. reflexivity.
  - intros c r H. apply (N2 c (rev r)). rewrite <- (rev_involutive k), H, rev_app_distr. reflexivity.
Qed.

Lemma blank_head : forall (b1 b2 t1 t2 : pystr), b1 ++ t1 = b2 ++ t2 -> Forall blank b1 -> Forall blank b2 ->
  (forall c r, t1 = c :: r -> ~ blank c) -> (forall c r, t2 = c :: r -> ~ blank c) -> b1 = b2 /\ t1 = t2.
Proof.
  induction b1 as [|c b1 IH]; intros b2 t1 t2 EQ B1 B2 N1 N2.
  - cbn [app] in EQ. destruct b2 as [|d b2]; [auto|]. exfalso. apply (N1 d (b2 ++ t2)); [exact EQ|]. apply Forall_cons_iff in B2. apply B2.
  - apply Forall_cons_iff in B1 as [C1 B1]. destruct b2 as [|d b2].
    + exfalso. apply (N2 c (b1 ++ t1)); auto.
    + apply Forall_cons_iff in B2 as [_ B2]. cbn [app] in EQ. injection EQ as <- EQ. destruct (IH b2 t1 t2 EQ B1 B2 N1 N2) as [-> ->]. auto.
Qed.
Lemma all_blank : forall t, Forall blank t -> (forall c r, t = c :: r -> ~ blank c) -> t = [].
Proof. intros t F N. destruct F as [|c t C F]; auto. exfalso. exact (N c t eq_refl C). Qed.

Lemma stripped_unique : forall s t1 t2, stripped s t1 -> stripped s t2 -> t1 = t2.
Proof.
  assert (REV : forall t : pystr, (forall c r, t = r ++ [c] -> ~ blank c) -> forall c r, rev t = c :: r -> ~ blank c).
  { intros t N c r H. apply (N c (rev r)). rewrite <- (rev_involutive t), H. reflexivity. }
  assert (EMP : forall s t, stripped s t -> t = [] -> Forall blank s) by (intros s t (b & a & -> & B & A & _) ->; apply Forall_app; auto).
  assert (NB : forall s t, stripped s t -> Forall blank s -> t = []).
  { intros s t (b & a & -> & B & A & N & _) F. apply Forall_app in F as [_ F]. apply Forall_app in F as [F _]. apply all_blank; auto. }
  intros s t1 t2 H1 H2. destruct t1 as [|c1 r1]; [symmetry; apply (NB s); auto; apply (EMP s []); auto|]. destruct t2 as [|c2 r2]; [apply (NB s); auto; apply (EMP s []); auto|].
  destruct H1 as (b1 & a1 & E1 & B1 & A1 & N1 & M1), H2 as (b2 & a2 & E2 & B2 & A2 & N2 & M2). rewrite E1 in E2.
  apply blank_head in E2 as [_ E2]; auto; [|intros c r H; injection H as <- _; eapply N1; reflexivity|intros c r H; injection H as <- _; eapply N2; reflexivity].
  apply (f_equal (@rev Z)) in E2. rewrite !rev_app_distr in E2. apply blank_head in E2 as [_ E2]; [|apply Forall_rev; auto|apply Forall_rev; auto|apply REV; auto|apply REV; auto].
  rewrite <- (rev_involutive (c1 :: r1)), <- (rev_involutive (c2 :: r2)). congruence.
Qed.
Lemma strip_iff : forall s t, strip s = t <-> stripped s t.
Proof. intros s t. split; [intros <-; apply strip_stripped|]. intros H. apply (stripped_unique s); auto using strip_stripped. Qed.

End WithEnv.
