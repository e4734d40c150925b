(** Theorems C96: MS-MPC applications (junipermsmpc.py). *)
From Coq Require Import Lia ZifyBool ZifyNat.
From Verif Require Import SpecCisco Samples BaseFacts PyStrFacts TextProofs JuniperText PropsPolicy SpecMsmpc MsmpcProofs MsmpcOptions.
Local Open Scope string_scope.
Local Open Scope list_scope.
Local Open Scope Z_scope.

(** ** C96: application sets say what the terms say *)

(** When the terms of a filter are accepted, the terms that count are those rendered, in their order; the
    lines of the applications can be read; and the application set a term refers to (its own, or one shared
    with an earlier term) is matched exactly by the traffic of the protocols, ports and ICMP types of the term.
    Terms without any of them refer to no set.
    Missing for the full claim: protocols given twice, and the terms of the refutations below. *)
Theorem C96_sets_say_what_terms_say_partial : forall today name terms apps used,
  plain_word name -> (forall t, In t terms -> rendered today t = true -> ms_term_ok t \/ ms_any t) ->
  ms_terms today name [] [] terms = Ok (apps, used) ->
  map fst used = filter (rendered today) terms /\
  exists conf, statements (ms_applications apps) = Some conf /\
    forall t n p, In (t, n) used -> ms_term_ok t -> real_ports p -> (set_matches conf (n ++ "-app")%string p <-> of_term t p).
Proof. exact ms_whole. Qed.
Print Assumptions C96_sets_say_what_terms_say_partial.

(** Such a filter, without ICMP types, is accepted if the shortened names of its terms differ. *)
Theorem C96_distinct_names_accepted : forall today name terms,
  (forall t, In t terms -> rendered today t = true -> ms_term_ok t /\ t_icmp_type t = []) ->
  NoDup (map (fun t => ms_name name (t_name t)) terms) -> exists r, ms_terms today name [] [] terms = Ok r.
Proof. intros today name terms O N. apply ms_accepts; [exact O|exact N|]. intros t _. split; intros []. Qed.
Print Assumptions C96_distinct_names_accepted.

Definition msweb : term := Eval vm_compute in set_protocol ["tcp"; "udp"] (set_destination_port [(80, 80); (8000, 8080)] (accept "web")).
Definition mssame : term := Eval vm_compute in set_protocol ["tcp"; "udp"] (set_destination_port [(80, 80); (8000, 8080)] (accept "same")).
Definition msold : term := Eval vm_compute in set_expiration (Some 100) (set_protocol ["gre"] (accept "old")).
Definition msest : term := Eval vm_compute in set_option ["tcp-established"] (set_protocol ["tcp"] (accept "est")).
Definition mswide : term := Eval vm_compute in set_protocol ["ipip"; "icmpv6"; "tcp"; "hopopt"] (accept "tunnel").
Ltac ms_ok := constructor; [discriminate
  |repeat constructor; cbn; intuition discriminate
  |intros q J; cbn in J; repeat (destruct J as [<-|J]; [apply str_in_spec; reflexivity|]); destruct J
  |intros q J; cbn in J; repeat (destruct J as [<-|J]; [discriminate|]); destruct J
  |intros (q & J & A & B); first [split; reflexivity|exfalso; cbn in J; intuition congruence]
  |intros r J; cbn in J; repeat (destruct J as [<-|J]; [cbn; lia|]); destruct J
  |intros r J; cbn in J; repeat (destruct J as [<-|J]; [cbn; lia|]); destruct J
  |reflexivity|reflexivity].
Definition msping : term := Eval vm_compute in set_protocol ["icmp"] (set_icmp_type ["echo-request"; "echo-reply"] (accept "ping")).
Definition msping6 : term := Eval vm_compute in set_protocol ["icmpv6"] (set_icmp_type ["echo-request"] (accept "ping6")).
Definition msany : term := Eval vm_compute in accept "any".
Example C96_types_example :
  (forall t, In t [msping; msany; msping6] -> rendered 100 t = true -> ms_term_ok t \/ ms_any t) /\
  exists apps, ms_terms 100 "f" [] [] [msping; msany; msping6] = Ok (apps, [(msping, "fping"); (msany, "fany"); (msping6, "fping6")]) /\
  ms_applications apps =
    ["applications {";
     "application fping-app1 {"; "application-protocol icmp;"; "protocol icmp;"; "icmp-type 0;"; "inactivity-timeout 60;"; "}";
     "application fping-app2 {"; "application-protocol icmp;"; "protocol icmp;"; "icmp-type 8;"; "inactivity-timeout 60;"; "}";
     "application fping6-app1 {"; "protocol icmp6;"; "icmp6-type 128;"; "inactivity-timeout 60;"; "}";
     "application-set fping-app {"; "application fping-app1;"; "application fping-app2;"; "}";
     "application-set fping6-app {"; "application fping6-app1;"; "}"; "}"].
Proof.
  split; [intros t [<-|[<-|[<-|[]]]] R; first [left; ms_ok|right; repeat split; reflexivity]|].
  eexists. split; [vm_compute; reflexivity|vm_compute; reflexivity].
Qed.
Example C96_example :
  (forall t, In t [msweb; msold; mssame; msest; mswide] -> rendered 100 t = true -> ms_term_ok t /\ t_icmp_type t = []) /\ plain_word "edge" /\
  NoDup (map (fun t => ms_name "edge" (t_name t)) [msweb; msold; mssame; msest; mswide]) /\
  exists apps, ms_terms 100 "edge" [] [] [msweb; msold; mssame; msest; mswide] = Ok (apps, [(msweb, "edgeweb"); (mssame, "edgeweb"); (mswide, "edgetunnel")]) /\
  ms_applications apps =
    ["applications {";
     "application edgetunnel-app1 {"; "protocol 4;"; "}"; "application edgetunnel-app2 {"; "protocol icmp6;"; "}";
     "application edgetunnel-app3 {"; "protocol tcp;"; "destination-port 1-65535;"; "}"; "application edgetunnel-app4 {"; "protocol 0;"; "}";
     "application edgeweb-app1 {"; "protocol tcp;"; "destination-port 80;"; "}"; "application edgeweb-app2 {"; "protocol tcp;"; "destination-port 8000-8080;"; "}";
     "application edgeweb-app3 {"; "protocol udp;"; "destination-port 80;"; "}"; "application edgeweb-app4 {"; "protocol udp;"; "destination-port 8000-8080;"; "}";
     "application-set edgetunnel-app {"; "application edgetunnel-app1;"; "application edgetunnel-app2;"; "application edgetunnel-app3;"; "application edgetunnel-app4;"; "}";
     "application-set edgeweb-app {"; "application edgeweb-app1;"; "application edgeweb-app2;"; "application edgeweb-app3;"; "application edgeweb-app4;"; "}"; "}"].
Proof.
  split; [intros t [<-|[<-|[<-|[<-|[<-|[]]]]]] R; first [discriminate R|split; [ms_ok|reflexivity]]|]. split; [split; [discriminate|reflexivity]|].
  split; [repeat constructor; vm_compute; intuition discriminate|]. eexists. split; [vm_compute; reflexivity|vm_compute; reflexivity].
Qed.

(** *** Terms whose set says something else *)
Definition mspkt (proto : string) (sport dport : Z) : packet :=
  mkPacket (V4, 0) (V4, 0) proto sport dport "" 0 (fun _ => False) (fun _ => False) (fun _ => False) (fun _ => False) (fun _ => False) "" "" 0 0 0 0 "" "" "" "" "" "" "" "" "".
(** The filter with this term only is accepted, and its set is read from the lines. *)
Definition ms_single (t : term) (conf : list stmt) : Prop :=
  exists apps, ms_terms 100 "f" [] [] [t] = Ok (apps, [(t, ("f" ++ t_name t)%string)]) /\ statements (ms_applications apps) = Some conf.
(** Ports of SCTP, which policies may have, are not written: the set has all SCTP traffic. *)
Definition mssctp : term := Eval vm_compute in set_protocol ["sctp"] (set_destination_port [(80, 80)] (accept "s")).
Theorem C96_sctp_ports_refuted : exists t conf p, t_protocol t = ["sctp"] /\ ms_single t conf /\ real_ports p /\
  set_matches conf ("f" ++ t_name t ++ "-app")%string p /\ ~ of_term t p.
Proof.
  exists mssctp, [Block ["applications"] [Block ["application"; "fs-app1"] [Leaf ["protocol"; "sctp"]]; Block ["application-set"; "fs-app"] [Leaf ["application"; "fs-app1"]]]], (mspkt "sctp" 1 22).
  split; [reflexivity|]. split; [eexists; split; [vm_compute; reflexivity|vm_compute; reflexivity]|]. split; [intros [X|X]; discriminate X|]. split.
  - do 4 eexists. split; [left; reflexivity|]. split; [right; left; reflexivity|]. split; [left; reflexivity|]. split; [left; reflexivity|].
    intros s [<-|[]]. split; [right; cbn; tauto|]. exists "sctp". split; [left; reflexivity|reflexivity].
  - intros (_ & _ & [X|(r & [<-|[]] & X)] & _); [discriminate X|]. unfold SpecPorts.in_range in X. cbn in X. lia.
Qed.
Print Assumptions C96_sctp_ports_refuted.
(** A term for all TCP has no port 0. *)
Definition mstcp : term := Eval vm_compute in set_protocol ["tcp"] (accept "t").
Theorem C96_port_zero_refuted : exists t conf p, ms_term_ok t /\ ms_single t conf /\ of_term t p /\ p_dport p = 0 /\ ~ set_matches conf ("f" ++ t_name t ++ "-app")%string p.
Proof.
  exists mstcp, [Block ["applications"] [Block ["application"; "ft-app1"] [Leaf ["protocol"; "tcp"]; Leaf ["destination-port"; "1-65535"]];
    Block ["application-set"; "ft-app"] [Leaf ["application"; "ft-app1"]]]], (mspkt "tcp" 1 0).
  split; [ms_ok|]. split; [eexists; split; [vm_compute; reflexivity|vm_compute; reflexivity]|].
  split; [split; [left; reflexivity|split; [left; reflexivity|split; left; reflexivity]]|]. split; [reflexivity|].
  intros (defs & members & m & body & [E|[]] & S & M & D & H). injection E as <-. destruct S as [S|[S|[]]]; [discriminate S|]. injection S as <-.
  destruct M as [M|[]]. injection M as <-. destruct D as [D|[D|[]]]; [|discriminate D]. injection D as <-.
  specialize (H _ (or_intror (or_introl eq_refl))). apply (dport_leaf "1-65535") in H; [|split; [discriminate|reflexivity]].
  change "1-65535" with (port_text (1, 65535)) in H. apply JuniperProofs.port_text_says in H; [|cbn; lia..]. unfold SpecPorts.in_range in H. cbn in H. lia.
Qed.
Print Assumptions C96_port_zero_refuted.
(** Terms with different names are refused if the names have the same end. *)
Definition mslong (c : string) (q : string) : term := set_protocol [q] (accept (c ++ "-abcdefghijklmnopqrstuvwxyz")%string).
Theorem C96_long_names_refuted : exists t u, ms_term_ok t /\ ms_term_ok u /\ t_name t <> t_name u /\
  ms_terms 100 "f" [] [] [t; u] = Raise (Exn "ConflictingApplicationSetsError").
Proof. exists (mslong "x" "tcp"), (mslong "y" "udp"). split; [ms_ok|]. split; [ms_ok|]. split; [discriminate|reflexivity]. Qed.
Print Assumptions C96_long_names_refuted.
(** A code of an ICMP type ends in two semicolons, and so the lines hold an empty statement. *)
Definition mscode : term := Eval vm_compute in set_protocol ["icmp"] (set_icmp_type ["unreachable"] (set_icmp_code [3] (accept "c"))).
Theorem C96_codes_refuted : exists t conf defs m body, t_icmp_code t <> [] /\ ms_single t conf /\
  In (Block ["applications"] defs) conf /\ In (Block ["application"; m] body) defs /\ In (Leaf []) body.
Proof.
  exists mscode. eexists. do 3 eexists. split; [discriminate|]. split; [eexists; split; [vm_compute; reflexivity|vm_compute; reflexivity]|].
  split; [left; reflexivity|]. split; [left; reflexivity|]. right. right. right. right. left. reflexivity.
Qed.
Print Assumptions C96_codes_refuted.
(** The names are to be unique on the device (junipermsmpc.py:517-522), but the sets of two filters with short
    names can have one name and different traffic. *)
Theorem C96_unique_names_refuted : exists f g t u n p apps apps', f <> g /\ ms_term_ok t /\ ms_term_ok u /\ real_ports p /\
  ms_terms 100 f [] [] [t] = Ok (apps, [(t, n)]) /\ ms_terms 100 g [] [] [u] = Ok (apps', [(u, n)]) /\ of_term t p /\ ~ of_term u p.
Proof.
  exists "edge-in", "edge", (set_protocol ["gre"] (accept "web")), (set_protocol ["esp"] (accept "-inweb")), "edge-inweb", (mspkt "gre" 0 0). do 2 eexists.
  split; [discriminate|]. split; [ms_ok|]. split; [ms_ok|]. split; [intros [X|X]; discriminate X|]. split; [vm_compute; reflexivity|]. split; [vm_compute; reflexivity|].
  split; [split; [left; reflexivity|split; [left; reflexivity|split; left; reflexivity]]|]. intros ([X|[]] & _). discriminate X.
Qed.
Print Assumptions C96_unique_names_refuted.

(** ** C97: headers are accepted exactly with the documented options *)

(** A header is accepted exactly if its options, in some order, are at most one family, at most one direction
    and at most one noverbose, and they are taken for what they say. *)
Theorem C97_options_exact : forall opts af dir noverbose, ms_options opts = Ok (af, dir, noverbose) <-> documented_options opts af dir noverbose.
Proof. exact ms_options_spec. Qed.
Print Assumptions C97_options_exact.
(** The order of the options does not matter. *)
Theorem C97_order_irrelevant : forall opts opts' r, Permutation opts opts' -> ms_options opts = Ok r -> ms_options opts' = Ok r.
Proof.
  intros opts opts' ((af, dir), nv) P H. apply ms_options_spec in H. apply ms_options_spec. destruct H as (a & d & n & Q & H). exists a, d, n. split; [|exact H].
  rewrite <- P. exact Q.
Qed.
Print Assumptions C97_order_irrelevant.
Example C97_example : documented_options ["egress"; "noverbose"; "inet6"] "inet6" "output" true /\ ms_options ["inet6"; "egress"; "noverbose"] = Ok ("inet6", "output", true) /\
  ms_options [] = Ok ("mixed", "input-output", false) /\ ms_options ["inet"; "inet6"] = Raise (Exn "ConflictingTargetOptionsError") /\
  ms_options ["inet"; "noverbose"; "noverbose"] = Raise (Exn "UnsupportedHeaderError").
Proof. split; [apply ms_options_spec; reflexivity|]. repeat split; reflexivity. Qed.
