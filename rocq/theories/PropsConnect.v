(** Property C169: what [connect] returns, and what its caller then has.  Proofs in
    TransportConnect.v. *)
From Verif Require Import Base Addresses Tunneling Emi Core Transport Messages Connect Wire Spec TraceSpec
  TransportBase TransportRuns TransportConnect.
From Coq Require Import Lia.
Open Scope N_scope.

(** ** C169 *)
(** Full property, refuted: a call made after [connect] returned [Ok] can fail
    because there is no connection. *)
Theorem C169_connected_refuted :
  ~ (forall e c start ls s0 sched s tr t o, connect_call e start ls = MOk s0 -> run c s0 sched = Some (s, tr) ->
       ~ In (EvRet t o (RErr EDisconnected)) (evs tr)).
Proof. exact not_connected. Qed.
(** With every result of [connect], as long as no datagram that grants a
    connection arrived, every call that returns fails with that error, [is_connected] returns
    false, and no call sends anything. *)
Theorem C169_no_device : forall e c start ls s0 sched s tr,
  connect_call e start ls = MOk s0 -> run c s0 sched = Some (s, tr) -> Forall bytes (arrived tr) ->
  (forall d ch ep, In d (arrived tr) -> ~ grants d ch ep) ->
  Forall before_event (evs tr).
Proof. exact no_device. Qed.
(** Each connection was granted by a datagram that arrived before. *)
Theorem C169_granted : forall c start ls tr s p n cd q,
  exec c start ls tr s -> Forall bytes (arrived tr) -> tr = p ++ (n, EvConnected cd) :: q ->
  exists d, In d (arrived p) /\ grants d (cd_chan cd) (cd_ep cd).
Proof. exact connected_granted. Qed.
(** [connect] fails exactly if the operating system gives no socket or refuses the
    target; its text says which.  It does not panic. *)
Theorem C169_error : forall e start ls t, connect_call e start ls = MErr t <->
  (exists x, co_bind e = Some x /\ t = ("Unable to get local address " ++ x)%string) \/
  (co_bind e = None /\ exists x, co_connect e = Some x /\ t = ("Unable to connect with target " ++ x)%string).
Proof. exact connect_err. Qed.
Theorem C169_ok : forall e start ls,
  connect_call e start ls <> MPanic /\
  ((exists s, connect_call e start ls = MOk s) <-> co_bind e = None /\ co_connect e = None).
Proof.
  intros e start ls. split; [apply connect_no_panic|]. split.
  - intros (s&H). apply connect_ok in H. tauto.
  - intros (B&C). exists (init_sys start ls). apply connect_ok. auto.
Qed.
(** A silent network and a refusal: no connection; then a granted one. *)
Definition refusal : list N := frame 0x0206 [0; 0x24].
Example C169_example :
  (exists s tr, run client (init_sys 0 no_listeners)
     ([LBg true; LBg true; LArrive refusal; LBg true] ++ reads) = Some (s, tr) /\
   arrived tr = [refusal] /\ bytes refusal /\ In (EvRet 1 (ORead lamp) (RErr EDisconnected)) (evs tr)) /\
  (exists s tr, run monitor (init_sys 0 no_listeners) asks = Some (s, tr) /\ In (EvRet 1 OIsConnected (RBool false)) (evs tr)) /\
  (exists s tr, run monitor (init_sys 0 no_listeners) (monitor_connect 7 ++ [LBg true] ++ asks) = Some (s, tr) /\
   In (EvRet 1 OIsConnected (RBool true)) (evs tr)) /\
  connect_call {| co_bind := None; co_connect := Some "Uncategorized"%string |} 0 no_listeners =
    MErr "Unable to connect with target Uncategorized".
Proof.
  split; [|split; [|split; [|reflexivity]]].
  - eexists; eexists. split; [vm_compute; reflexivity|]. vm_compute. repeat split; try (repeat constructor; fail); auto 20.
  - eexists; eexists. split; [vm_compute; reflexivity|]. vm_compute. auto 20.
  - eexists; eexists. split; [vm_compute; reflexivity|]. vm_compute. auto 20.
Qed.
Example C169_refused : forall ch ep, ~ grants refusal ch ep.
Proof.
  intros ch ep (size&n&rest&_&_&E&_). vm_compute in E. discriminate.
Qed.
