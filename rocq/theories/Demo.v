(** Model of the demo programs examples/discover.rs and src/main.rs. *)
From Verif Require Import Base Addresses Core DpTypes Transport Search.
From Coq Require Import String Ascii.
Open Scope list_scope.
Open Scope N_scope.

(** An ASCII literal as the list of its characters. *)
Definition text (s : string) : list N := map N_of_ascii (list_ascii_of_string s).
Fixpoint intersperse (sep : list N) (xs : list (list N)) : list N :=
  match xs with
  | [] => []
  | [x] => x
  | x :: xs' => x ++ sep ++ intersperse sep xs'
  end.

(** ** examples/discover.rs *)
(** std's [Display] of [Ipv4Addr] and [SocketAddrV4], and the [Debug] of an
    array of u8. *)
Definition show_ip (ip : list N) : list N := intersperse (text ".") (map show_uint ip).
Definition show_socket (ip : list N) (port : N) : list N := show_ip ip ++ text ":" ++ show_uint port.
Definition show_array (bs : list N) : list N := text "[" ++ intersperse (text ", ") (map show_uint bs) ++ text "]".
(** core.rs:897-904, derived [Debug]. *)
Definition show_medium (m : knx_medium) : list N :=
  match m with TP1 => text "TP1" | PL110 => text "PL110" | RF => text "RF" | IP => text "IP" end.
Definition c_sun : N := 0x2299.          (* the circled dot *)
Definition c_play : N := 0x23f5.         (* the triangle *)

(** discover.rs:37-65, one turn of the loop: the lines printed and how the turn
    ends ([?] on the friendly name, line 51). *)
Definition discover_device (s : search_response) : list (list N) * res unit :=
  let '{| sr_control := c; sr_device := d; sr_families := f |} := s in
  let l1 := [c_sun] ++ text " " ++ show_socket (hp_ip c) (hp_port c) in
  match friendly_name d with
  | Ok name =>
      ([ l1;
         [c_play] ++ text " Name: " ++ name;
         [c_play] ++ text " Medium: " ++ show_medium (di_medium d);
         [c_play] ++ text " Individual Addr: " ++ individual_debug (di_addr d);
         [c_play] ++ text " Programming Mode: " ++ (if di_status d =? 1 then text "yes" else text "no");
         [c_play] ++ text " Project Installation ID: " ++ show_uint (di_project d);
         [c_play] ++ text " Serial: " ++ show_array (di_serial d);
         [c_play] ++ text " Multicast Addr: " ++ show_ip (di_multicast d);
         [c_play] ++ text " MAC Addr: " ++ show_array (di_mac d) ]
       ++ map (fun x => [c_play; c_play] ++ text " Service Family: " ++ show_uint (fst x) ++ text " Version: " ++ show_uint (snd x)) (sf_list f)
       ++ [ [] ], Ok tt)
  | Err => ([l1], Err)
  | Panic => ([l1], Panic)
  end.
Fixpoint discover_all (rs : list search_response) : list (list N) * res unit :=
  match rs with
  | [] => ([], Ok tt)
  | s :: rs' =>
      match discover_device s with
      | (l, Ok _) => let '(l', r) := discover_all rs' in (l ++ l', r)
      | (l, r) => (l, r)
      end
  end.
(** discover.rs:31-68: the datagrams sent, the lines printed and how [main]
    ends; [None]: still searching.  The log line 35 is not modelled. *)
Definition discover (p : profile) (e : search_env) : option (res unit) * list (list N * N * list N) * list (list N) :=
  match search_call p e with
  | (Some (Ok rs), out) => let '(l, r) := discover_all rs in (Some r, out, l)
  | (Some Err, out) => (Some Err, out, [])
  | (Some Panic, out) => (Some Panic, out, [])
  | (None, out) => (None, out, [])
  end.

(** ** src/main.rs *)
(** main.rs:62-65 and 98: the two calls made after connecting; [unwrap] on the
    address.  The result of the first is only logged, that of the second ends
    the program. *)
Definition main_calls : res (list op) :=
  match addr_try_from (text "1/1/2") with
  | Ok a => Ok [OWrite a (b1u3_get_bytes (b1u3_dimming false 3)) true; ODisconnect]
  | _ => Panic
  end.
