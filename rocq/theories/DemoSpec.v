(** Specification of what the demo programs do. *)
From Verif Require Import Base Addresses Core Transport Wire Spec TraceSpec SearchSpec.
Open Scope N_scope.

(** ** The list of devices *)
(** Decimal notation without leading zeros. *)
Definition decimal (s : list N) (n : N) : Prop :=
  s <> [] /\ Forall is_digit s /\ digits_value s = n /\ (hd_error s = Some 48 -> s = [48]).
(** The texts [xs] with [sep] between them. *)
Inductive separated (sep : list N) : list (list N) -> list N -> Prop :=
| sep_none : separated sep [] []
| sep_one x : separated sep [x] x
| sep_more x y xs s : separated sep (y :: xs) s -> separated sep (x :: y :: xs) (x ++ sep ++ s).
Definition dotted (s : list N) (ns : list N) : Prop := exists xs, Forall2 decimal xs ns /\ separated [46] xs s.
Definition bracketed (s : list N) (ns : list N) : Prop :=
  exists xs t, Forall2 decimal xs ns /\ separated [44; 32] xs t /\ s = [91] ++ t ++ [93].
Definition medium_name (m : knx_medium) : list N :=
  match m with TP1 => [84; 80; 49] | PL110 => [80; 76; 49; 49; 48] | RF => [82; 70] | IP => [73; 80] end.
Definition yes_no (b : bool) : list N := if b then [121; 101; 115] else [110; 111].
(** The labels. *)
Definition label_of (s : list N) : list N := [0x23f5; 32] ++ s ++ [58; 32].
Definition lb_name := label_of [78; 97; 109; 101].
Definition lb_medium := label_of [77; 101; 100; 105; 117; 109].
Definition lb_addr := label_of [73; 110; 100; 105; 118; 105; 100; 117; 97; 108; 32; 65; 100; 100; 114].
Definition lb_mode := label_of [80; 114; 111; 103; 114; 97; 109; 109; 105; 110; 103; 32; 77; 111; 100; 101].
Definition lb_project := label_of [80; 114; 111; 106; 101; 99; 116; 32; 73; 110; 115; 116; 97; 108; 108; 97; 116; 105; 111; 110; 32; 73; 68].
Definition lb_serial := label_of [83; 101; 114; 105; 97; 108].
Definition lb_multicast := label_of [77; 117; 108; 116; 105; 99; 97; 115; 116; 32; 65; 100; 100; 114].
Definition lb_mac := label_of [77; 65; 67; 32; 65; 100; 100; 114].
Definition lb_family := [0x23f5; 0x23f5; 32; 83; 101; 114; 118; 105; 99; 101; 32; 70; 97; 109; 105; 108; 121; 58; 32].
Definition lb_version := [32; 86; 101; 114; 115; 105; 111; 110; 58; 32].
Definition family_line (l : list N) (f : N * N) : Prop :=
  exists a b, decimal a (fst f) /\ decimal b (snd f) /\ l = lb_family ++ a ++ lb_version ++ b.
(** The lines about one device. *)
Definition device_lines (lines : list (list N)) (r : reply) : Prop :=
  exists ip port addr project serial multicast mac fams,
    dotted ip (hp_ip (rp_control r)) /\ decimal port (hp_port (rp_control r)) /\
    dotted addr [rp_addr r / 4096; rp_addr r / 256 mod 16; rp_addr r mod 256] /\
    decimal project (rp_project r) /\ bracketed serial (rp_serial r) /\ dotted multicast (rp_multicast r) /\
    bracketed mac (rp_mac r) /\ Forall2 family_line fams (rp_families r) /\
    lines = [ [0x2299; 32] ++ ip ++ [58] ++ port;
              lb_name ++ rp_name r;
              lb_medium ++ medium_name (rp_medium r);
              lb_addr ++ addr;
              lb_mode ++ yes_no (N.odd (rp_status r));
              lb_project ++ project;
              lb_serial ++ serial;
              lb_multicast ++ multicast;
              lb_mac ++ mac ] ++ fams ++ [ [] ].
(** Nothing the list shows differs. *)
Definition same_shown (a b : reply) : Prop :=
  hp_ip (rp_control a) = hp_ip (rp_control b) /\ hp_port (rp_control a) = hp_port (rp_control b) /\
  rp_medium a = rp_medium b /\ N.odd (rp_status a) = N.odd (rp_status b) /\ rp_addr a = rp_addr b /\ rp_project a = rp_project b /\
  rp_serial a = rp_serial b /\ rp_multicast a = rp_multicast b /\ rp_mac a = rp_mac b /\ rp_name a = rp_name b /\
  rp_families a = rp_families b.

(** ** The dimming program *)
(** The calls of a trace, in order. *)
Definition calls (tr : trace) : list (nat * op) :=
  flat_map (fun x => match snd x with EvInvoke t o => [(t, o)] | _ => [] end) tr.
