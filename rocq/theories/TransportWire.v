(** Sequence numbers on the wire; datagrams that change nothing; the pace of
    connection attempts. *)
From Verif Require Import Base Addresses Apdu Tunneling Emi Core Transport Wire Spec TraceSpec TraceSpec2 BaseProofs CoreProofs EmiProofs ResponseProofs
  TransportBase TransportInv TransportConn TransportCalls TransportReturn TransportBg TransportBgThm TransportNotify TransportBgThm2 TransportBgThm3.
From Coq Require Import Lia ZifyBool ZifyNat ZifyN.
Open Scope N_scope.

(** ** Sublists *)
Lemma sublist_refl A (xs : list A) : sublist xs xs.
Proof. induction xs; constructor; auto. Qed.
Lemma sublist_app A (a b c d : list A) : sublist a b -> sublist c d -> sublist (a ++ c) (b ++ d).
Proof. intros H1 H2. induction H1; cbn; try constructor; auto. Qed.
Lemma sublist_nil A (xs : list A) : sublist [] xs.
Proof. induction xs; constructor; auto. Qed.
Lemma sublist_trans A (a b c : list A) : sublist a b -> sublist b c -> sublist a c.
Proof.
  intros H1 H2. revert a H1. induction H2; intros a H1; [exact H1| |].
  - inversion H1; subst; constructor; auto.
  - constructor. auto.
Qed.

Lemma transmitted_app a b : transmitted (a ++ b) = transmitted a ++ transmitted b. Proof. apply flat_map_app. Qed.

(** ** The number in hand *)
Definition in_hand (pc : client_pc) : list N :=
  match pc with
  | CChan _ _ seq => [seq]
  | CSend o bs => if tunnel_op o then [nth 8 bs 0] else []
  | _ => []
  end.
Definition pend (s : sys) : list N :=
  match s_tlock s with Some u => in_hand (s_clients s u) | None => [] end.
Lemma request_number p ch seq pkt bs :
  tunneling_request_packet p {| tr_chan := ch; tr_seq := seq; tr_cemi := pkt |} = Ok bs -> service bs = 0x0420 /\ nth 8 bs 0 = seq.
Proof.
  unfold tunneling_request_packet. destruct (add_chk _ _ _ _); intro E; try discriminate E. injection E as <-. split; reflexivity.
Qed.
Lemma direct_service o ch ep : service (direct o ch ep) <> 0x0420.
Proof. destruct o; vm_compute; discriminate. Qed.
Lemma bg_transmits n es : forallb bg_event es = true -> transmitted (stamp n es) = [].
Proof.
  intro H. unfold transmitted, stamp. induction es as [|e es IH]; [reflexivity|]. cbn in H |- *. apply andb_prop in H. destruct H as [H1 H2].
  rewrite (IH H2). destruct e as [| | | |[] ?|[] ?| | | | | | | | | | | | | |]; try reflexivity. discriminate H1.
Qed.
Lemma call_wire c start ls tr s l s' es t :
  exec c start ls tr s -> step c s l = Some (s', es) -> call_label l = Some t ->
  sublist (transmitted (stamp (s_now s) es) ++ pend s') (pend s ++ issued (stamp (s_now s) es)).
Proof.
  intros H Hs Hl. pose proof (lock_inv _ _ _ _ _ H t) as L.
  assert (D : forall o bs, s_clients s t = CSend o bs -> tunnel_op o = false -> service bs <> 0x0420).
  { intros o bs E T. destruct (hist_inv _ _ _ _ _ H t) as (h&cur&_&_&Hh). rewrite E in Hh. cbn [hist] in Hh.
    destruct Hh as [(T'&_)|(_&ch&ep&ch'&ep'&_&_&->&_)]; [congruence|]. apply direct_service. }
  assert (D2 : forall o ch, s_clients s t = CEp o ch -> direct_op o = true).
  { intros o ch E. destruct (hist_inv _ _ _ _ _ H t) as (h&cur&_&_&Hh). rewrite E in Hh. apply Hh. }
  assert (O : holds (s_clients s t) = false -> s_tlock s <> Some t) by (intros F E; apply L in E; congruence).
  destruct (holds (s_clients s t)) eqn:Hh.
  - assert (Lk : s_tlock s = Some t) by (apply L; reflexivity). clear L O.
    destruct l; try discriminate Hl; injection Hl as ->; inv_step Hs; unfold pend; sys; rewrite ?Lk, ?Nat.eqb_refl; sys; rewrite ?upd_same;
      repeat match goal with G : s_clients s t = _ |- _ => rewrite G in *; clear G end;
      try discriminate Hh; cbn [in_hand tunnel_op transmitted issued stamp map flat_map snd app]; try apply sublist_nil.
    all: try match goal with G : tunneling_request_packet _ _ = Ok _ |- _ => apply request_number in G; destruct G as (_&->) end.
    all: try match goal with |- context [tunnel_op ?o] => destruct (tunnel_op o) eqn:? end.
    all: try (match goal with |- context [service ?b =? _] => destruct (N.eqb_spec (service b) 0x0420) as [Es|Es] end).
    all: try (exfalso; eapply D; [reflexivity|reflexivity|exact Es]).
    all: try (exfalso; pose proof (D2 _ _ eq_refl) as X; discriminate X).
    all: cbn; repeat constructor.
  - specialize (O eq_refl). clear L.
    destruct l; try discriminate Hl; injection Hl as ->; inv_step Hs; unfold pend; sys;
      repeat match goal with G : s_clients _ t = _ |- _ => rewrite G in *; clear G end; try discriminate Hh.
    all: cbn [transmitted issued stamp map flat_map snd app].
    all: repeat match goal with G : s_tlock _ = _ |- _ => rewrite G in *; clear G end.
    all: try match goal with |- context [match s_tlock ?x with _ => _ end] => destruct (s_tlock x) as [u|] eqn:Lk; [|cbn; constructor] end.
    all: try (rewrite upd_same; cbn; constructor).
    all: try (rewrite ?Nat.eqb_refl; sys; rewrite ?upd_same; cbn; constructor).
    all: match goal with G : Some ?u <> Some _ |- _ => rename u into u0 end.
    all: assert (u0 <> t) as Nu by congruence; try (replace (Nat.eqb u0 t) with false by (symmetry; apply Nat.eqb_neq; exact Nu));
      rewrite ?upd_other by exact Nu; rewrite ?app_nil_r; apply sublist_refl.
Qed.
Lemma wire_inv c start ls tr s : exec c start ls tr s -> sublist (transmitted tr ++ pend s) (issued tr).
Proof.
  intro H. pattern tr, s. revert tr s H. apply exec_inv; [constructor|].
  intros tr s l s' es H IH Hs. rewrite transmitted_app, issued_app.
  destruct (bg_label l) eqn:Hb.
  - destruct (bg_frame _ _ _ _ _ Hs Hb) as (_&_&E1&E2&E3). rewrite (bg_transmits _ _ E3), app_nil_r.
    replace (pend s') with (pend s) by (unfold pend; rewrite E1, E2; reflexivity).
    rewrite <- (app_nil_r (transmitted tr ++ pend s)). apply sublist_app; [exact IH|apply sublist_nil].
  - destruct (call_label l) as [t|] eqn:Hc.
    + pose proof (call_wire _ _ _ _ _ _ _ _ _ H Hs Hc) as W. rewrite <- app_assoc.
      eapply sublist_trans; [apply sublist_app; [apply sublist_refl|exact W]|].
      rewrite app_assoc. apply sublist_app; [exact IH|apply sublist_refl].
    + destruct (env_frame _ _ _ _ _ Hs Hb Hc) as (_&_&_&_&E1&E2&_).
      replace (pend s') with (pend s) by (unfold pend; rewrite E1, E2; reflexivity).
      assert (T : transmitted (stamp (s_now s) es) = []).
      { destruct l; try discriminate Hb; try discriminate Hc; inv_step Hs; reflexivity. }
      rewrite T, app_nil_r. rewrite <- (app_nil_r (transmitted tr ++ pend s)). apply sublist_app; [exact IH|apply sublist_nil].
Qed.
Lemma transmitted_in_order c start ls tr s : exec c start ls tr s -> sublist (transmitted tr) (issued tr).
Proof.
  intro H. eapply sublist_trans; [|exact (wire_inv _ _ _ _ _ H)]. rewrite <- (app_nil_r (transmitted tr)) at 1.
  apply sublist_app; [apply sublist_refl|apply sublist_nil].
Qed.
