(** Reading of the commands for the advanced firewall of Windows, and its way to decide.  Independent of
    the code that writes them. *)
From Verif Require Export ModelWin SpecPolicy SpecText.
From Verif Require Import SpecAclgen SpecGce.
Local Open Scope string_scope.
Local Open Scope list_scope.
Local Open Scope Z_scope.

(** ** Commands *)

Record adv_entry := mkAdv {
  av_dir : string; av_action : string; av_local : string; av_remote : string; av_lport : option string; av_rport : option string;
  av_proto : packet -> Prop }.
(** key=value *)
Definition settings (ws : list string) : option (list (string * string)) :=
  all_some (map (fun w => if has_char "=" w then Some (before_char "=" w, after_char "=" w) else None) ws).
Definition adv_keys : list string :=
  ["name"; "enable"; "interfacetype"; "dir"; "localip"; "remoteip"; "localport"; "remoteport"; "protocol"; "action"].
(** any, tcp, udp, icmpv4, icmpv6, one of the latter with a type and any code, or a number *)
Definition read_protocol (w : string) : option (packet -> Prop) :=
  if String.eqb w "any" then Some (fun _ => True)
  else if str_in w ["tcp"; "udp"] then Some (fun p => p_proto p = w)
  else if String.eqb w "icmpv4" then Some (fun p => p_proto p = "icmp")
  else if String.eqb w "icmpv6" then Some (fun p => p_proto p = "icmpv6")
  else if has_char ":" w then
    match str_in (before_char ":" w) ["icmpv4"; "icmpv6"] && String.eqb (after_char "," (after_char ":" w)) "any", numeral_value (before_char "," (after_char ":" w)) with
    | true, Some n => Some (fun p => if String.eqb (before_char ":" w) "icmpv4" then p_proto p = "icmp" /\ In (p_icmp_type p, n) icmp_type4
                                     else p_proto p = "icmpv6" /\ In (p_icmp_type p, n) icmp_type6)
    | _, _ => None
    end
  else match numeral_value w with Some n => if n <=? 255 then Some (fun p => In (p_proto p, n) proto_map) else None | None => None end.
Definition distinct (l : list string) : bool := (fix go l := match l with [] => true | x :: r => negb (str_in x r) && go r end) l.
(** A command that adds a rule; None: not accepted.  Ports are only accepted with tcp and udp. *)
Definition read_command (ws : list string) : option adv_entry :=
  if list_str_eqb (firstn 5 ws) ["netsh"; "advfirewall"; "firewall"; "add"; "rule"] then
    match settings (skipn 5 ws) with
    | None => None
    | Some d =>
        if forallb (fun x => str_in (fst x) adv_keys) d && distinct (map fst d)
           && match assoc "enable" d with Some w => String.eqb w "yes" | None => true end
           && match assoc "interfacetype" d with Some w => String.eqb w "any" | None => true end
        then
          let or_any o := match o with Some w => w | None => "any" end in
          match assoc "name" d, assoc "dir" d, assoc "action" d, read_protocol (or_any (assoc "protocol" d)) with
          | Some _, Some dir, Some action, Some proto =>
              if str_in (lower dir) ["in"; "out"] && str_in action ["allow"; "block"]
                 && ((match assoc "localport" d, assoc "remoteport" d with None, None => true | _, _ => false end)
                     || str_in (or_any (assoc "protocol" d)) ["tcp"; "udp"])
              then Some (mkAdv (lower dir) action (or_any (assoc "localip" d)) (or_any (assoc "remoteip" d)) (assoc "localport" d) (assoc "remoteport" d) proto)
              else None
          | _, _, _, _ => None
          end
        else None
    end
  else None.
(** Lines that start with a colon are labels, which do nothing. *)
Definition is_command (line : string) : bool := negb (starts_with ":" line || forall_char is_ws line).
Definition adv_read (lines : list string) : option (list adv_entry) := all_some (map (fun l => read_command (split_ws l)) (filter is_command lines)).

(** ** What they say *)

Definition address_says (x : ipaddr) (w : string) : Prop := w = "any" \/ prefix_says (fst x) w (snd x).
Definition ports_say (n : Z) (o : option string) : Prop := forall w, o = Some w -> exists piece, In piece (split_char "," w) /\ in_text_range piece n.
(** A rule is about the packet on its way in or out. *)
Definition adv_applies (d : string) (p : packet) (r : adv_entry) : Prop :=
  av_dir r = d /\ av_proto r p /\
  (if String.eqb d "in" then address_says (p_src p) (av_remote r) /\ address_says (p_dst p) (av_local r) /\ ports_say (p_sport p) (av_rport r) /\ ports_say (p_dport p) (av_lport r)
   else address_says (p_src p) (av_local r) /\ address_says (p_dst p) (av_remote r) /\ ports_say (p_sport p) (av_lport r) /\ ports_say (p_dport p) (av_rport r)).
(** Rules that block take precedence over rules that allow; their order does not matter. *)
Definition block_wins {A} (says : A -> string -> Prop) (l : list A) (outcome : string) : Prop :=
  (outcome = "block" /\ exists x, In x l /\ says x "block") \/
  (outcome = "allow" /\ (exists x, In x l /\ says x "allow") /\ ~ exists x, In x l /\ says x "block").
Definition adv_decides (rules : list adv_entry) (d : string) (p : packet) (outcome : string) : Prop :=
  block_wins (fun r o => adv_applies d p r /\ av_action r = o) rules outcome.

(** ** What the policy file asks for *)

Notation win_header := (option (list string) * list string)%type (only parsing).
Definition win_asks (h : win_header) (name : string) (opts : list string) : Prop := fst h = Some (name :: opts).
Definition win_version (opts : list string) : ver := if str_in "inet6" opts then V6 else V4.
Definition not_established (t : term) : Prop := ~ In "established" (t_option t) /\ ~ In "tcp-established" (t_option t).
Definition win_verdict (a : string) : option string := if String.eqb a "accept" then Some "allow" else if String.eqb a "deny" then Some "block" else None.
(** The filters are called in and out.  Replies to connections that are allowed are allowed anyway, so
    that terms for established connections are not looked at. *)
Definition adv_term_says (today : Z) (d : string) (p : packet) (x : win_header * term) (outcome : string) : Prop :=
  let (h, t) := x in
  exists name opts a, win_asks h name opts /\ lower name = d /\ win_version opts = fst (p_src p) /\ in_force today t /\
    meant_for "windows_advfirewall" t /\ not_established t /\ term_matches t p /\ t_action t = [a] /\ win_verdict a = Some outcome.
Definition win_terms_of (fs : list (win_header * list term)) : list (win_header * term) := flat_map (fun f => map (pair (fst f)) (snd f)) fs.
(** All headers for this direction are for the family of the packet. *)
Definition one_family (fs : list (win_header * list term)) (d : string) (v : ver) : Prop :=
  forall h terms name opts, In (h, terms) fs -> win_asks h name opts -> lower name = d -> win_version opts = v.
(** No term that denies comes after one that accepts. *)
Definition denies_first (fs : list (win_header * list term)) : Prop :=
  forall u x v y w, win_terms_of fs = u ++ x :: v ++ y :: w -> t_action (snd x) = ["accept"] -> t_action (snd y) <> ["deny"].

(** ** Policies that can be rendered exactly *)

Record adv_term_ok (v : ver) (t : term) : Prop := {
  ao_name : forall_char (fun c => negb (is_ws c)) (t_name t) = true;
  ao_protocol : forall q, In q (t_protocol t) -> In q ["tcp"; "udp"; "icmp"; "icmpv6"; "vrrp"; "ah"; "hopopt"];
  (* terms with the ICMP of the other family are left out as a whole *)
  ao_icmp : In (if ver_eqb v V4 then "icmpv6" else "icmp") (t_protocol t) -> t_protocol t = [if ver_eqb v V4 then "icmpv6" else "icmp"];
  ao_ports : (t_source_port t <> [] \/ t_destination_port t <> []) -> t_protocol t <> [] /\ forall q, In q (t_protocol t) -> In q ["tcp"; "udp"];
  ao_range : forall r, In r (t_source_port t ++ t_destination_port t) -> 0 <= fst r /\ 0 <= snd r;
  ao_option : t_option t = [];
  ao_address : valid_list (t_source_address t) /\ valid_list (t_destination_address t) /\
    forall n, In n (t_source_address t ++ t_destination_address t) -> nlen n = 0 -> nver n = v;
  ao_warned : t_restrict_address_family t = None /\ t_source_tag t = [] /\ t_destination_tag t = [] /\ t_ttl t <> Some 0 /\
    t_source_interface t <> Some "" /\ t_destination_interface t <> Some "" }.
Definition adv_policy_ok (today : Z) (fs : list (win_header * list term)) : Prop :=
  forall h terms, In (h, terms) fs -> fst h <> None -> exists name opts, win_asks h name opts /\ In (lower name) ["in"; "out"] /\
    forall t, In t terms -> in_force today t -> meant_for "windows_advfirewall" t -> not_established t -> adv_term_ok (win_version opts) t.
Record adv_traffic (p : packet) : Prop := {
  at_family : fst (p_src p) = fst (p_dst p);
  at_src : 0 <= snd (p_src p) < 2 ^ width (fst (p_src p));
  at_dst : 0 <= snd (p_dst p) < 2 ^ width (fst (p_dst p));
  at_icmp : p_proto p <> if ver_eqb (fst (p_src p)) V4 then "icmpv6" else "icmp";
  at_platform : p_platform p = "windows_advfirewall" }.
