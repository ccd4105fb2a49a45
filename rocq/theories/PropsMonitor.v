(** Properties C80-C82: the monitor. *)
From Verif Require Import Base Addresses Apdu Tunneling Emi Core Transport Wire Spec TraceSpec
  TransportBase TransportThm3 TransportBgThm4 TransportNotify TransportMore TransportMore2 TransportRuns.
Open Scope N_scope.

(** ** C80 *)
Theorem C80_next_message : forall c start ls tr s p n t r q,
  exec c start ls tr s -> Forall bytes (arrived tr) -> tr = p ++ (n, EvRet t ONextMsg r) :: q ->
  exists body, in_call t ONextMsg p body /\ next_outcome t p r body.
Proof. exact next_result. Qed.
(** A confirmation is skipped, then the indication is returned; later the task
    has stopped and the queue is empty. *)
Example C80_example :
  map snd (call_events 1 (skipn 18 (firstn 21 monitor_session))) =
    [EvInvoke 1 ONextMsg;
     EvDeq 1 {| ce_code := 0x2e; ce_infos := []; ce_service := ldata_bytes 0xbc 0xe0 0x1101 0x0901 2 0x80 [1] |};
     EvDeq 1 {| ce_code := 0x29; ce_infos := []; ce_service := ldata_bytes 0xbc 0xe0 0x1105 0x0902 2 0x80 [9] |}] /\
  (exists i, nth_error monitor_session 21 = Some (0, EvRet 1 ONextMsg (RInd i)) /\ li_value i = [9] /\ ld_dest (li_data i) = 0x0902) /\
  nth_error monitor_session 50 = Some (0, EvRet 1 ONextMsg (RErr EClosed)).
Proof. vm_compute. repeat split. eexists. repeat split. Qed.

(** ** C81 *)
(** [ns]: the listeners notified after the connection, [todo]: those still to be
    notified (none once the task does anything else). *)
Theorem C81_notified : forall c start ls tr s p n cd q,
  exec c start ls tr s -> c_mode c = MMonitor -> tr = p ++ (n, EvConnected cd) :: q ->
  exists ns rest todo, bg_events q = map EvNotify ns ++ rest /\
    kept (fun x => li_alive (s_listeners s x)) (registered p) (ns ++ todo) /\
    (rest <> [] -> todo = []) /\
    (forall r1 x r2, rest = r1 ++ EvNotify x :: r2 -> exists cd', In (EvConnected cd') r1) /\
    match s_bg s with
    | BNotify t _ => (rest = [] /\ t = todo) \/ exists cd', In (EvConnected cd') rest
    | _ => todo = []
    end.
Proof. exact notified. Qed.
(** Only live listeners, and only when they have room. *)
Theorem C81_only_live : forall c start ls tr s p n x q,
  exec c start ls tr s -> tr = p ++ (n, EvNotify x) :: q ->
  exists s0, exec c start ls p s0 /\ li_alive (s_listeners s0 x) = true /\
    (li_count (s_listeners s0 x) < li_cap (s_listeners s0 x))%nat.
Proof. exact notify_alive. Qed.
(** Only listeners that were dropped leave the list. *)
Theorem C81_list_kept : forall c start ls tr s,
  exec c start ls tr s -> kept (fun x => li_alive (s_listeners s x)) (registered tr) (s_onconn s).
Proof. intros c start ls tr s H. exact (proj1 (roll_inv _ _ _ _ _ H)). Qed.
(** With room in their channels the remaining listeners are told without anyone
    else moving, and the dropped ones are gone from the list afterwards. *)
Theorem C81_completes : forall c s todo active,
  s_bg s = BNotify todo active ->
  Forall (fun l => li_alive (s_listeners s l) = true ->
            (li_count (s_listeners s l) + length todo <= li_cap (s_listeners s l))%nat) todo ->
  exists s' tr, run c s (repeat (LBg true) (S (length todo))) = Some (s', tr) /\ s_bg s' = BRecv /\
    bg_events tr = map EvNotify (filter (fun l => li_alive (s_listeners s l)) todo) /\
    s_onconn s' = active ++ filter (fun l => li_alive (s_listeners s l)) todo.
Proof. exact notify_completes. Qed.
(** Of the listeners 0 and 1 the second was dropped. *)
Example C81_example :
  registered (firstn 8 monitor_session) = [0%nat; 1%nat] /\
  firstn 2 (skipn 8 monitor_session) =
    [(0, EvConnected {| cd_chan := 7; cd_ep := gateway; cd_seq := 1 |}); (0, EvNotify 0)] /\
  firstn 2 (skipn 44 monitor_session) =
    [(0, EvConnected {| cd_chan := 8; cd_ep := gateway; cd_seq := 1 |}); (0, EvNotify 0)].
Proof. vm_compute. repeat split. Qed.

(** ** C82 *)
Theorem C82_not_blocked_refuted :
  exists tr s, exec monitor 0 one_full tr s /\ well_typed tr /\ registered tr = [0%nat] /\
    in_call 1 OIsConnected tr [] /\ s_clients s 1 = CConnChk /\
    forall sched s' tr', run monitor s sched = Some (s', tr') -> forallb (leaves_alone 0) sched = true ->
      bg_events tr' = [] /\ forallb (fun e => negb (needs_connection e)) (evs tr') = true.
Proof. exact slow_listener. Qed.
