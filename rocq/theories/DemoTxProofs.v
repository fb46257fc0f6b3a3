(** The transactions of DemoTx.v are well formed. *)
From Coq Require Import String Lia.
From Verif Require Import PyBase Env PyNum Validate Basic Spec EnvOk TxInput TxOutput Tx Create TxSpec SignSpec Demo DemoTx.
From Verif Require Import NumLemmas HexProofs Base58Proofs AddrProofs AmountProofs ScriptProofs WireProofs MakeProofs DemoProofs.

Lemma demo_crypto : CryptoOk demo_env.
Proof.
  destruct assumptions_satisfiable as (H1 & H2 & H3 & H4 & H5 & H6 & H7 & H8 & H9). exact (conj H2 (conj H9 (conj H3 (conj H4 (conj H6 H7))))).
Qed.

Lemma made_in : forall a tb idx v x, @txin_create demo_env (PStr a) (PStr (hex_of tb)) (PInt idx) v = Ok x -> bytes tb ->
  in_outpoint x tb idx /\ exists h, @in_owner demo_env x h.
Proof.
  intros a tb idx v x H Hb. apply (@txin_create_iff demo_env demo_hash demo_zero_address demo_uni) in H.
  destruct H as (a' & txid & _ & T & M). injection T as T. 
  assert (Bt : bytes txid) by (destruct M as (? & ? & ? & _ & B & _); exact B).
  apply hex_of_inj in T; auto. subst txid.
  apply (@made_input_facts demo_env) in M. destruct M as [[i [h (I & O & _ & W)]] _]. injection I as <-. eauto.
Qed.
Lemma bytes_repeat : forall b n, byte b -> bytes (repeat b n).
Proof. intros b n H. apply Forall_forall. intros z Hz. apply repeat_spec in Hz. subst. auto. Qed.
Lemma made_out : forall a v y, @txout_create demo_env (PStr a) v = Ok y -> exists o, out_wire y o.
Proof.
  intros a v y H. apply (@txout_create_iff demo_env demo_hash demo_zero_address demo_uni) in H. destruct H as (a' & _ & M).
  apply (@made_output_facts demo_env) in M. destruct M as (h & _ & O & _). eauto.
Qed.

Lemma demo_body2 : forall t x y z z' a1 a2 b1 b2 i1 i2 v1 v2 a v a' v', tx_inputs t = [x; y] -> tx_outputs t = [z; z'] ->
  tx_create [x; y] [z; z'] = Ok (set_change_address t None) ->
  @txin_create demo_env (PStr a1) (PStr (hex_of (repeat b1 32))) (PInt i1) v1 = Ok x ->
  @txin_create demo_env (PStr a2) (PStr (hex_of (repeat b2 32))) (PInt i2) v2 = Ok y ->
  @txout_create demo_env (PStr a) v = Ok z -> @txout_create demo_env (PStr a') v' = Ok z' -> byte b1 -> byte b2 -> exists ins outs, @tx_body demo_env t ins outs.
Proof.
  intros t x y z z' a1 a2 b1 b2 i1 i2 v1 v2 a v a' v' T1 T2 TC X Y Z0 Z0' B1 B2.
  apply made_in in X; [|apply bytes_repeat; auto]. apply made_in in Y; [|apply bytes_repeat; auto]. apply made_out in Z0. apply made_out in Z0'. destruct X as [X1 X2]. destruct Y as [Y1 Y2]. destruct Z0 as [o Z1]. destruct Z0' as [o' Z1'].
  apply tx_create_inv in TC. destruct TC as (_ & _ & _ & _ & TH & _).
  exists [mk_sinput (repeat b1 32) i1 []; mk_sinput (repeat b2 32) i2 []], [o; o']. split; [exact TH|]. rewrite T1, T2.
  split; [constructor; [assumption|constructor; [assumption|constructor]]|]. split; [constructor; [assumption|constructor; [assumption|constructor]]|]. constructor; [assumption|constructor; [assumption|constructor]].
Qed.

Lemma demo_body : exists ins outs, @tx_body demo_env created ins outs.
Proof.
  eapply (demo_body2 created _ _ _ _ addr1 addr2 205 171 1 7 50000000 200000 addr1 90000 addr3 50100000); [reflexivity|reflexivity| | | | | | |]; try (unfold byte; lia);
  vm_compute; reflexivity.
Qed.
Lemma twice_body : exists ins outs, @tx_body demo_env twice ins outs.
Proof.
  eapply (demo_body2 twice _ _ _ _ addr1 addr1 205 171 1 7 50000000 200000 addr1 90000 addr3 50100000); [reflexivity|reflexivity| | | | | | |]; try (unfold byte; lia);
  vm_compute; reflexivity.
Qed.
