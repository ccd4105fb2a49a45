(** The project's transport tests (udp.rs:576-671) against the model. *)
From Verif Require Import Base Addresses Tunneling Emi Core Transport Wire Spec TraceSpec TraceSpec2 BaseProofs
  TransportBase TransportInv TransportCalls TransportThm TransportBg TransportBgThm TransportMore TransportMore2.
From Coq Require Import Lia.
Open Scope N_scope.

(** Without bus traffic disconnect cannot succeed. *)
Lemma quiet_disconnect c start ls tr s n t r :
  exec c start ls tr s -> Forall bytes (arrived tr) ->
  (forall d m, In d (arrived tr) -> ~ carries d m) -> In (n, EvRet t ODisconnect r) tr -> r <> RUnit.
Proof.
  intros H Hb Hq Hin ->. apply in_split in Hin. destruct Hin as (p&q&E).
  destruct (disconnect_returns _ _ _ _ _ _ _ _ _ _ H E) as (body&Hc&n2&d&n3&m&->).
  assert (Hm : In (n3, EvDeq t m) p) by (apply (in_call_in _ _ _ _ _ Hc); right; left; reflexivity).
  assert (Ht : In m (taken tr)).
  { rewrite E. unfold taken. apply in_flat_map. exists (n3, EvDeq t m). split; [apply in_or_app; left; exact Hm|left; reflexivity]. }
  destruct (queue_inv _ _ _ _ _ H) as (Q&_).
  destruct (queued_origin _ _ _ _ _ m H Hb) as (x&u&Hx&L&O); [rewrite Q; apply in_or_app; left; exact Ht|].
  apply (Hq _ m Hx). exists u. auto.
Qed.
Lemma not_carrying d m : bytes d -> service (recv_buffer d) <> 0x0420 -> ~ carries d m.
Proof.
  intros Hb Hs (t&(size&pad&tail&_&E&_)&_). apply Hs. rewrite E. reflexivity.
Qed.
(** The mock gateway's datagrams: the connection response (100 octets) and the
    encoded connection-state response of status 0 (udp.rs:582-590, 645-652). *)
Definition mock_granted : list N :=
  [0x06; 0x10; 0x02; 0x06; 0x00; 0x14; 0x08; 0x00; 0x08; 0x01; 0x00; 0x00; 0x00; 0x00; 0x00; 0x00; 0x04; 0x04; 0xff; 0xf0]
  ++ repeat 0 80.
Definition mock_state : list N := connstate_response_packet {| ss_chan := 8; ss_status := 0 |}.
Lemma mock_quiet c start ls tr s n t r :
  exec c start ls tr s -> Forall (fun d => d = mock_granted \/ d = mock_state) (arrived tr) ->
  In (n, EvRet t ODisconnect r) tr -> r <> RUnit.
Proof.
  intros H F. rewrite Forall_forall in F.
  assert (B : forall d, In d (arrived tr) -> bytes d).
  { intros d Hd. destruct (F _ Hd) as [->| ->]; repeat constructor. }
  apply (quiet_disconnect c start ls tr s n t r H).
  - apply Forall_forall. exact B.
  - intros d m Hd. apply not_carrying; [apply B, Hd|]. destruct (F _ Hd) as [->| ->]; discriminate.
Qed.
