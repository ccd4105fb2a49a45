(** Property C169, further: a call made right after [connect] fails at once. *)
From Verif Require Import Base Addresses Tunneling Emi Core Transport Messages Connect Wire Spec TraceSpec TraceSpec2 LiveSpec
  TransportBase TransportLive2 TransportRuns TransportConnect.
Open Scope N_scope.

(** ** C169 *)
(** Two steps of the call are enough, nobody else has to do anything. *)
Theorem C169_fails_at_once : forall e c start ls s0 t o,
  connect_call e start ls = MOk s0 -> op_mode o = c_mode c ->
  sendable o \/ o = OStatus \/ o = ODisconnect \/ o = OMDisconnect ->
  exists s, run c s0 [LInvoke t o; LCl t true; LCl t true] =
    Some (s, [(start, EvInvoke t o); (start, EvRet t o (RErr EDisconnected))]) /\ s_clients s t = CIdle /\ s_tlock s = None.
Proof.
  intros e c start ls s0 t o C M D. apply connect_ok in C. destruct C as (_&_&->).
  assert (T : exists o1, (forall s, after_lock c s t o = goto s t o1 []) /\ (o1 = CChan2 o \/ exists pkt, o1 = CSeq o pkt)).
  { destruct D as [D|[->|[-> | ->]]]; [|eexists; split; [reflexivity|left; reflexivity]..].
    pose proof (op_cemi_ok (c_prof c) o D) as K. exists (CSeq o (telegram o)). split; [|eauto].
    intro s. unfold after_lock. rewrite K. destruct o; try destruct D; reflexivity. }
  destruct T as (o1&T&Do).
  assert (A : op_apdu o <> Panic).
  { destruct D as [D|[->|[-> | ->]]]; try discriminate. pose proof (op_cemi_ok (c_prof c) o D) as K. unfold op_cemi in K.
    intro X. rewrite X in K. discriminate K. }
  assert (I : invoke c (init_sys start ls) t o = Some (set_client (init_sys start ls) t (CLock o), [EvInvoke t o])).
  { unfold invoke. cbn [init_sys s_clients]. rewrite M. destruct (c_mode c); destruct (op_apdu o); try reflexivity; contradiction. }
  cbn [run step]. cbn [init_sys s_rx_alive]. fold (init_sys start ls). rewrite I.
  unfold cl_step at 1. cbn [set_client s_rx_alive s_clients s_tlock s_bg init_sys]. rewrite upd_same. cbn [s_tlock]. rewrite T.
  unfold goto. cbn [set_client set_tlock s_rx_alive s_clients s_tlock s_conn s_bg].
  unfold cl_step. cbn [set_client set_tlock s_rx_alive s_clients s_tlock s_conn s_bg]. rewrite upd_same.
  destruct Do as [->|(pkt&->)]; unfold cd_locked; cbn; unfold unlock; cbn; rewrite Nat.eqb_refl; cbn;
    (eexists; split; [reflexivity|]); cbn; rewrite upd_same; auto.
Qed.
Example C169_at_once_example :
  sendable (ORead lamp) /\ op_mode (ORead lamp) = c_mode client /\
  exists s, run client (init_sys 0 no_listeners) [LInvoke 1 (ORead lamp); LCl 1 true; LCl 1 true] =
    Some (s, [(0, EvInvoke 1 (ORead lamp)); (0, EvRet 1 (ORead lamp) (RErr EDisconnected))]).
Proof. split; [vm_compute; repeat split; reflexivity|]. split; [reflexivity|]. eexists. vm_compute. reflexivity. Qed.
