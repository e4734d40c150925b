(** Property theorems about looking up definitions: C93. *)
From Coq Require Import Bool Sorted Lia.
From Verif Require Import SpecCgrep PyStrFacts NamingProofs LoadProofs IpParentProofs CgrepProofs.
Local Open Scope string_scope.
Local Open Scope list_scope.

(** Some addresses, for examples. *)
Definition some_nets : list (string * net) :=
  [("10.0.0.0/8", mkNet V4 167772160 8 "" "" ""); ("10.1.0.0/16", mkNet V4 167837696 16 "" "" "");
   ("10.1.2.3/32", mkNet V4 167838211 32 "" "" ""); ("10.1.2.3", mkNet V4 167838211 32 "" "" "");
   ("10.0.0.1", mkNet V4 167772161 32 "" "" ""); ("10.0.0.0/24", mkNet V4 167772160 24 "" "" "");
   ("10.0.0.0/25", mkNet V4 167772160 25 "" "" ""); ("10.0.0.128/25", mkNet V4 167772288 25 "" "" "");
   ("fe80::1", mkNet V6 338288524927261089654018896841347694593 128 "" "" "");
   ("fe80::1/128", mkNet V6 338288524927261089654018896841347694593 128 "" "" "")].
Definition read_net (s : string) : option net :=
  match filter (fun p => String.eqb (fst p) s) some_nets with p :: _ => Some (snd p) | [] => None end.
Lemma read_net_networks : reads_networks read_net.
Proof.
  intros s n E. unfold read_net in E. destruct (filter _ some_nets) as [|p l] eqn:F; [discriminate E|]. injection E as <-.
  assert (I : In p some_nets) by (apply (filter_In (fun p => String.eqb (fst p) s)); rewrite F; left; reflexivity).
  clear F. repeat (destruct I as [<-|I]; [split; [cbv; split; congruence|]; split; [cbv; split; congruence|]; match goal with |- (?s | ?a)%Z => exists (a / s)%Z end; vm_compute; reflexivity|]). destruct I.
Qed.

(** ** C93 *)

(** The report of an address names exactly the definitions of that address (themselves, or behind
    each definition that contains them), with the networks of each that contain the address;
    definitions with longer prefixes come first. *)
Theorem C93_report_exact_partial :
  forall parse_ip svc net st fuel ip q rs, load svc net = Ok st ->
    reads_networks parse_ip -> bare_refs (n_networks st) ->
    (forall T, has_definition (n_networks st) T -> word T) ->
    digit_start ip -> parse_ip ip = Some q ->
    cgrep_parents parse_ip (n_networks st) fuel ip = Ok rs ->
    (forall name nets, In (name, nets) rs -> exists T, defines parse_ip (n_networks st) q T /\
      named (n_networks st) T name /\ shows parse_ip (n_networks st) q T nets) /\
    (forall T name, defines parse_ip (n_networks st) q T -> named (n_networks st) T name ->
      exists nets, In (name, nets) rs /\ shows parse_ip (n_networks st) q T nets) /\
    StronglySorted (fun a b => forall k l, longest (snd a) k -> longest (snd b) l -> (l <= k)%Z) rs.
Proof.
  intros parse_ip svc net st fuel ip q rs Hl RN BR KW.
  exact (report_spec parse_ip _ (proj2 (load_wf _ _ _ Hl)) RN BR KW fuel ip q rs).
Qed.
Print Assumptions C93_report_exact_partial.

(** Comparing the reports of two addresses. *)
Theorem C93_group_diff_exact_partial :
  forall parse_ip svc net st fuel ip1 ip2 q1 q2 common diff1 diff2, load svc net = Ok st ->
    reads_networks parse_ip -> bare_refs (n_networks st) ->
    (forall T, has_definition (n_networks st) T -> word T) ->
    digit_start ip1 -> digit_start ip2 -> parse_ip ip1 = Some q1 -> parse_ip ip2 = Some q2 ->
    group_diff parse_ip (n_networks st) fuel ip1 ip2 = Ok (common, diff1, diff2) ->
    (forall s, In s common <-> reported parse_ip (n_networks st) q1 s /\ reported parse_ip (n_networks st) q2 s) /\
    (forall s, In s diff1 <-> reported parse_ip (n_networks st) q1 s /\ ~ reported parse_ip (n_networks st) q2 s) /\
    (forall s, In s diff2 <-> reported parse_ip (n_networks st) q2 s /\ ~ reported parse_ip (n_networks st) q1 s) /\
    StronglySorted str_before common /\ StronglySorted str_before diff1 /\ StronglySorted str_before diff2.
Proof.
  intros parse_ip svc net st fuel ip1 ip2 q1 q2 c d1 d2 Hl RN BR KW.
  exact (diff_spec parse_ip _ (proj2 (load_wf _ _ _ Hl)) RN BR KW fuel ip1 ip2 q1 q2 c d1 d2).
Qed.
Print Assumptions C93_group_diff_exact_partial.

(** Is an address in a definition? *)
Theorem C93_membership_exact :
  forall parse_ip svc net st fuel ip q token r, load svc net = Ok st ->
    digit_start ip -> parse_ip ip = Some q ->
    compare_ip_token parse_ip (n_networks st) fuel token None [ip] = Ok r ->
    (defines parse_ip (n_networks st) q token /\ r = Some (ip ++ " is in " ++ token)%string) \/
    (~ defines parse_ip (n_networks st) q token /\ r = Some (ip ++ " is _not_ in " ++ token)%string).
Proof.
  intros parse_ip svc net st fuel ip q token r Hl. exact (token_spec parse_ip _ (proj2 (load_wf _ _ _ Hl)) fuel ip q token r).
Qed.
Print Assumptions C93_membership_exact.

(** Is a definition within another?  Only if each of its networks is within a single one of the
    other: then, in particular, all of its addresses are the other's. *)
Theorem C93_encapsulated_partial :
  forall parse_ip svc net st fuel qa qb A B b, load svc net = Ok st -> reads_networks parse_ip ->
    query_token qa = Ok A -> query_token qb = Ok B ->
    check_encapsulated parse_ip (n_services st) (n_networks st) fuel "network" qa qb = Ok b ->
    (b = true <-> forall n, net_in parse_ip (n_networks st) A n ->
      exists m, net_in parse_ip (n_networks st) B m /\ within n m) /\
    (b = true -> forall x, def_has parse_ip (n_networks st) A x -> def_has parse_ip (n_networks st) B x).
Proof.
  intros parse_ip svc net st fuel qa qb A B b Hl RN Qa Qb E.
  pose proof (encapsulated parse_ip _ (proj2 (load_wf _ _ _ Hl)) RN (n_services st) fuel qa qb A B b Qa Qb E) as X. split; [exact X|].
  intros Hb x (n & I & C). destruct (proj1 X Hb n I) as (m & Im & W). exists m. split; [exact Im|exact (W x C)].
Qed.
Print Assumptions C93_encapsulated_partial.

(** The union of two definitions; what is called their difference lists it again. *)
Theorem C93_union_exact :
  forall parse_ip svc net st fuel qa qb A B union diff, load svc net = Ok st -> reads_networks parse_ip ->
    query_token qa = Ok A -> query_token qb = Ok B ->
    compare_tokens parse_ip (n_networks st) fuel qa qb = Ok (union, diff) ->
    (forall x, (exists n, In n union /\ covers n x) <->
      def_has parse_ip (n_networks st) A x \/ def_has parse_ip (n_networks st) B x) /\
    diff = map prefixlen_text union.
Proof.
  intros parse_ip svc net st fuel qa qb A B union diff Hl RN.
  exact (union_spec parse_ip _ (proj2 (load_wf _ _ _ Hl)) RN fuel qa qb A B union diff).
Qed.
Print Assumptions C93_union_exact.

(** The services of a port and a protocol, given in either order. *)
Theorem C93_services_exact :
  forall svc net st fuel first second port proto n, load svc net = Ok st ->
    (forall T, has_definition (n_services st) T -> word T) ->
    numeral_value port = Some n -> (forall c, occurs c port -> is_digit c = true) ->
    (forall c, occurs c proto -> is_alpha c = true) -> word proto -> ~ occurs "/" proto ->
    (first, second) = (port, proto) \/ (first, second) = (proto, port) ->
    forall l p q, cgrep_services (n_services st) fuel first second = Ok (p, q, l) ->
      p = port /\ q = proto /\ l <> [] /\ StronglySorted str_before l /\
      forall T, In T l <-> exists s, service_in (n_services st) T s /\ covers_port s n proto.
Proof.
  intros svc net st fuel first second port proto n Hl KW N Dp Ap W O F l p q.
  exact (services_spec _ (proj1 (load_wf _ _ _ Hl)) fuel first second port proto n KW N Dp Ap W O F l p q).
Qed.
Print Assumptions C93_services_exact.

(** Not complete: two halves hold all of a network, but none holds it alone. *)
Theorem C93_encapsulated_halves_refuted :
  exists net st, load [] net = Ok st /\ reads_networks read_net /\
    (forall x, def_has read_net (n_networks st) "WHOLE" x -> def_has read_net (n_networks st) "HALVES" x) /\
    check_encapsulated read_net (n_services st) (n_networks st) 5 "network" "WHOLE" "HALVES" = Ok false.
Proof.
  eexists ["WHOLE = 10.0.0.0/24"; "HALVES = 10.0.0.0/25 10.0.0.128/25"], _. split; [vm_compute; reflexivity|]. split; [exact read_net_networks|].
  split; [|vm_compute; reflexivity]. set (t := n_networks _).
  assert (WF : well_formed t).
  { destruct (load [] ["WHOLE = 10.0.0.0/24"; "HALVES = 10.0.0.0/25 10.0.0.128/25"]) as [st|] eqn:E; [|discriminate E].
    pose proof (proj2 (load_wf _ _ _ E)) as W. vm_compute in E. injection E as <-. exact W. }
  assert (Ew : get_net read_net 5 t "WHOLE" = Ok [mkNet V4 167772160 24 "" "WHOLE" "WHOLE"]) by (vm_compute; reflexivity).
  assert (Eh : get_net read_net 5 t "HALVES" = Ok [mkNet V4 167772160 25 "" "HALVES" "HALVES"; mkNet V4 167772288 25 "" "HALVES" "HALVES"]) by (vm_compute; reflexivity).
  intros x H. apply (def_has_nets read_net t WF 5 "WHOLE" _ eq_refl Ew) in H. apply (def_has_nets read_net t WF 5 "HALVES" _ eq_refl Eh).
  destruct H as (n & [<-|[]] & V & L). cbn [nver naddr fst] in V, L. change (size _) with 256%Z in L.
  destruct (Z.ltb_spec (snd x) 167772288) as [Lt|Ge].
  - eexists. split; [left; reflexivity|]. split; [exact V|]. cbn [naddr]. change (size _) with 128%Z. lia.
  - eexists. split; [right; left; reflexivity|]. split; [exact V|]. cbn [naddr]. change (size _) with 128%Z. lia.
Qed.
Print Assumptions C93_encapsulated_halves_refuted.

(** Comparing two services always fails. *)
Theorem C93_services_compared_refuted :
  exists svc st, load svc [] = Ok st /\
    check_encapsulated read_net (n_services st) (n_networks st) 5 "service" "WEB" "WEB" = Raise (Exn "AttributeError").
Proof. eexists ["WEB = 80/tcp 443/tcp"], _. split; [vm_compute; reflexivity|vm_compute; reflexivity]. Qed.
Print Assumptions C93_services_compared_refuted.

(** What two definitions have in common is listed as their difference. *)
Theorem C93_difference_refuted :
  exists net st union, load [] net = Ok st /\
    get_net read_net 5 (n_networks st) "A" = Ok [mkNet V4 167772160 24 "" "A" "A"] /\
    get_net read_net 5 (n_networks st) "B" = Ok [mkNet V4 167772160 24 "" "B" "B"] /\
    compare_tokens read_net (n_networks st) 5 "A" "B" = Ok (union, ["10.0.0.0/24"]).
Proof. eexists ["A = 10.0.0.0/24"; "B = 10.0.0.0/24"], _, _. split; [vm_compute; reflexivity|]. split; [vm_compute; reflexivity|]. split; vm_compute; reflexivity. Qed.
Print Assumptions C93_difference_refuted.

(** Of several addresses only the last is answered for. *)
Theorem C93_last_address_refuted :
  exists net st, load [] net = Ok st /\
    compare_ip_token read_net (n_networks st) 5 "A" None ["10.1.2.3"; "10.0.0.1"] = Ok (Some "10.0.0.1 is in A").
Proof. eexists ["A = 10.0.0.0/24"], _. split; [vm_compute; reflexivity|vm_compute; reflexivity]. Qed.
Print Assumptions C93_last_address_refuted.

(** An address whose text does not start with a digit is in no definition. *)
Theorem C93_letters_refuted :
  exists net st, load [] net = Ok st /\ entry_value (n_networks st) "A" "fe80::1/128" "" /\
    compare_ip_token read_net (n_networks st) 5 "A" None ["fe80::1"] = Ok (Some "fe80::1 is _not_ in A") /\
    cgrep_parents read_net (n_networks st) 5 "fe80::1" = Ok [].
Proof.
  eexists ["A = fe80::1/128"], _. split; [vm_compute; reflexivity|]. split; [|split; vm_compute; reflexivity].
  eexists _, _. split; [left; reflexivity|]. split; [left; reflexivity|]. constructor.
  split; [discriminate|]. split; [intros c Hc; cbv in Hc; intuition (subst; reflexivity)|cbv; intuition congruence].
Qed.
Print Assumptions C93_letters_refuted.

Example C93_example :
  reads_networks read_net /\
  exists st, load ["WEB = 80/tcp"; "HIGH = 1024-65535/tcp"] ["ALL = 10.0.0.0/8"; "SITE = 10.1.0.0/16"; "HOSTS = 10.1.2.3/32"; "CAMPUS = SITE HOSTS"] = Ok st /\
    cgrep_parents read_net (n_networks st) 5 "10.1.2.3" =
      Ok [("CAMPUS", ["10.1.0.0/16"; "10.1.2.3/32"]); ("CAMPUS -> HOSTS", ["10.1.2.3/32"]); ("CAMPUS -> SITE", ["10.1.0.0/16"]); ("ALL", ["10.0.0.0/8"])] /\
    group_diff read_net (n_networks st) 5 "10.1.2.3" "10.0.0.1" = Ok (["ALL"], ["CAMPUS"; "CAMPUS -> HOSTS"; "CAMPUS -> SITE"], []) /\
    check_encapsulated read_net (n_services st) (n_networks st) 5 "network" "CAMPUS" "ALL" = Ok true /\
    cgrep_services (n_services st) 5 "tcp" "80" = Ok ("80", "tcp", ["WEB"]) /\
    bare_refs (n_networks st) /\
    (forall T, has_definition (n_networks st) T \/ has_definition (n_services st) T -> word T).
Proof.
  split; [exact read_net_networks|]. eexists. split; [vm_compute; reflexivity|]. do 4 (split; [vm_compute; reflexivity|]). split.
  - intros T v c [items [i [H1 [H2 H3]]]] _. exists items. split; [exact H1|]. simpl in H1. destruct H3 as [v Hv|v c Hv]; [exact H2|exfalso].
    assert (Hh : has_char "#" (v ++ " # " ++ c) = true) by (rewrite !has_char_app; simpl; rewrite orb_true_r; reflexivity).
    destruct H1 as [H1|[H1|[H1|[H1|[]]]]]; injection H1 as <- <-; cbn [In] in H2;
      repeat (destruct H2 as [H2|H2]; [rewrite <- H2 in Hh; discriminate|]); destruct H2.
  - intros T H. cbv [has_definition n_networks n_services map fst In] in H.
    assert (W : forall x, has_char "#" x = false -> x <> "" -> forall_char (fun c => negb (is_ws c)) x = true -> word x).
    { intros x Hc N F. split; [exact N|]. split; [intros c O; rewrite forall_char_occurs in F; specialize (F c O); destruct (is_ws c); [discriminate F|reflexivity]|apply not_occurs, Hc]. }
    destruct H as [[<-|[<-|[<-|[<-|[]]]]]|[<-|[<-|[]]]]; apply W; solve [reflexivity|discriminate].
Qed.
