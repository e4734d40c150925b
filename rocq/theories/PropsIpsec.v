(** Theorems C89: IP security policies of Windows (windows.py, windows_ipsec.py). *)
From Coq Require Import Lia ZifyBool ZifyNat.
From Verif Require Import SpecCisco Samples BaseFacts PyStrFacts TextProofs CiscoProofs QuietTerm GceProofs IpsecPolicy.
From Verif Require Import PropsPolicy SpecWin SpecIpsec.
Local Open Scope string_scope.
Local Open Scope list_scope.
Local Open Scope Z_scope.

(** ** C89: the rules have the verdicts of the terms *)

(** All commands are accepted.  For each filter, the verdicts that its rules have for a packet are those of the
    terms in force of its headers that match the packet or the one that goes the other way; terms for
    established connections are left out.  Which of several verdicts the system takes is not said.  Missing
    for the full claim: the policies of the refutations below, and that the rules belong to a policy. *)
Theorem C89_rules_have_verdicts_partial : forall today fs lines,
  ips_policy_ok today fs -> ips_text today fs = Ok lines ->
  exists cmds, ips_read lines = Some cmds /\
    forall policy p o, ips_traffic p -> ips_says cmds policy p o <-> exists x, In x (ips_terms fs) /\ ips_term_says today policy p x o.
Proof. intros today fs lines Po H. destruct (objects_say today fs lines Po H) as (cmds & R & S & _). exists cmds. split; [exact R|exact S]. Qed.
Print Assumptions C89_rules_have_verdicts_partial.
(** No rule belongs to a policy that the commands create: that one has another name, unless there are
    filters whose names differ only by -policy. *)
Theorem C89_rules_without_policy_refuted : forall today fs lines,
  ips_policy_ok today fs -> ips_text today fs = Ok lines ->
  (forall h terms h' terms' name opts name' opts', In (h, terms) fs -> In (h', terms') fs -> win_asks h name opts -> win_asks h' name' opts' -> name <> (name' ++ "-policy")%string) ->
  exists cmds, ips_read lines = Some cmds /\ forall n policy l a, In (IRule n policy l a) cmds -> ~ In (IPolicy policy) cmds.
Proof.
  intros today fs lines Po H D. destruct (objects_say today fs lines Po H) as (cmds & R & _ & Pol & Rul). exists cmds. split; [exact R|]. intros n policy l a I J.
  destruct (Rul n policy l a I) as (h & ts & opts & Ih & Ha). destruct (Pol policy J) as (h' & ts' & name & opts' & Ih' & Ha' & E). exact (D _ _ _ _ _ _ _ _ Ih Ih' Ha Ha' E).
Qed.
Print Assumptions C89_rules_without_policy_refuted.

(** *** A policy that meets the hypotheses *)
Definition kweb : term := Eval vm_compute in set_protocol ["tcp"; "udp"] (set_destination_port [(80, 81)] (set_source_address [v4 10 0 0 0 8; v6 db8 32] (set_destination_address [v4 192 168 1 0 24; v4 0 0 0 0 0] (accept "web")))).
Definition kping : term := Eval vm_compute in set_protocol ["icmp"] (accept "ping").
Definition kv6 : term := Eval vm_compute in set_protocol ["icmpv6"] (accept "v6").
Definition kest : term := Eval vm_compute in set_option ["tcp-established"] (set_protocol ["tcp"] (accept "est")).
Definition kold : term := Eval vm_compute in set_expiration (Some 100) (set_protocol ["gre"] (accept "old")).
Definition kother : term := Eval vm_compute in set_platform ["juniper"] (set_protocol ["gre"] (accept "other")).
Definition krest : term := Eval vm_compute in set_action ["deny"] (blank "rest").
Definition ips_sample : list (win_header * list term) :=
  [((Some ["server"; "inet"], ["Servers."]), [kweb; kold; kping; kv6; kest; krest]); ((None, []), [krest]); ((Some ["desk"], []), [kother; krest])].
Definition ips_sample_text : list string :=
    [": Windows_ipsec server Policy"; "netsh ipsec static add policy name=server-policy assign=yes"; ""; ": Servers."; ":"; ": $Id:$"; ": $Date:$";
     ": $Revision:$"; ": inet"; "netsh ipsec static add filterlist name=s_web-list ";
     "netsh ipsec static add filteraction name=s_web-action action=permit";
     "netsh ipsec static add filter filterlist=s_web-list mirrored=yes srcaddr=10.0.0.0 srcmask=8 dstaddr=192.168.1.0 dstmask=24 dstport=80 protocol=tcp";
     "netsh ipsec static add filter filterlist=s_web-list mirrored=yes srcaddr=10.0.0.0 srcmask=8 dstaddr=192.168.1.0 dstmask=24 dstport=81 protocol=tcp";
     "netsh ipsec static add filter filterlist=s_web-list mirrored=yes srcaddr=10.0.0.0 srcmask=8 dstaddr=192.168.1.0 dstmask=24 dstport=80 protocol=udp";
     "netsh ipsec static add filter filterlist=s_web-list mirrored=yes srcaddr=10.0.0.0 srcmask=8 dstaddr=192.168.1.0 dstmask=24 dstport=81 protocol=udp";
     "netsh ipsec static add filter filterlist=s_web-list mirrored=yes srcaddr=10.0.0.0 srcmask=8 dstaddr=any  dstport=80 protocol=tcp";
     "netsh ipsec static add filter filterlist=s_web-list mirrored=yes srcaddr=10.0.0.0 srcmask=8 dstaddr=any  dstport=81 protocol=tcp";
     "netsh ipsec static add filter filterlist=s_web-list mirrored=yes srcaddr=10.0.0.0 srcmask=8 dstaddr=any  dstport=80 protocol=udp";
     "netsh ipsec static add filter filterlist=s_web-list mirrored=yes srcaddr=10.0.0.0 srcmask=8 dstaddr=any  dstport=81 protocol=udp";
     "netsh ipsec static add filterlist name=s_web-list "; "netsh ipsec static add filteraction name=s_web-action action=permit";
     "netsh ipsec static add rule name=s_web-rule policy=server filterlist=s_web-list filteraction=s_web-action "; "";
     "netsh ipsec static add filterlist name=s_ping-list "; "netsh ipsec static add filteraction name=s_ping-action action=permit";
     "netsh ipsec static add filter filterlist=s_ping-list mirrored=yes srcaddr=any  dstaddr=any  protocol=icmp";
     "netsh ipsec static add filterlist name=s_ping-list "; "netsh ipsec static add filteraction name=s_ping-action action=permit";
     "netsh ipsec static add rule name=s_ping-rule policy=server filterlist=s_ping-list filteraction=s_ping-action "; "";
     "netsh ipsec static add filterlist name=s_rest-list "; "netsh ipsec static add filteraction name=s_rest-action action=block";
     "netsh ipsec static add filter filterlist=s_rest-list mirrored=yes srcaddr=any  dstaddr=any  protocol=any";
     "netsh ipsec static add filterlist name=s_rest-list "; "netsh ipsec static add filteraction name=s_rest-action action=block";
     "netsh ipsec static add rule name=s_rest-rule policy=server filterlist=s_rest-list filteraction=s_rest-action "; "";
     ": Windows_ipsec desk Policy"; "netsh ipsec static add policy name=desk-policy assign=yes"; ""; ": $Id:$"; ": $Date:$"; ": $Revision:$";
     ": inet"; "netsh ipsec static add filterlist name=d_rest-list "; "netsh ipsec static add filteraction name=d_rest-action action=block";
     "netsh ipsec static add filter filterlist=d_rest-list mirrored=yes srcaddr=any  dstaddr=any  protocol=any";
     "netsh ipsec static add filterlist name=d_rest-list "; "netsh ipsec static add filteraction name=d_rest-action action=block";
     "netsh ipsec static add rule name=d_rest-rule policy=desk filterlist=d_rest-list filteraction=d_rest-action "; ""; ""].
Lemma ips_sample_ok t : In t [kweb; kping; kv6; krest] -> ips_term_ok t.
Proof.
  intros I. constructor.
  - destruct I as [<-|[<-|[<-|[<-|[]]]]]; reflexivity.
  - intros q J. apply str_in_spec. destruct I as [<-|[<-|[<-|[<-|[]]]]]; cbn in J; repeat (destruct J as [<-|J]; [reflexivity|]); destruct J.
  - destruct I as [<-|[<-|[<-|[<-|[]]]]]; cbn; intros J; repeat (destruct J as [J|J]; try discriminate J); try destruct J; reflexivity.
  - destruct I as [<-|[<-|[<-|[<-|[]]]]]; intros [X|X]; try (destruct (X eq_refl)). split; [discriminate|]. intros q J. exact J.
  - intros l J. destruct I as [<-|[<-|[<-|[<-|[]]]]]; cbn in J; repeat (destruct J as [<-|J]; [first [left; reflexivity|right; eexists; eexists; split; [reflexivity|lia]]|]); destruct J.
  - destruct I as [<-|[<-|[<-|[<-|[]]]]]; reflexivity.
  - destruct I as [<-|[<-|[<-|[<-|[]]]]]; (split; valid_tac).
  - destruct I as [<-|[<-|[<-|[<-|[]]]]]; repeat split; discriminate.
Qed.
Example C89_example : ips_policy_ok 100 ips_sample /\ ips_text 100 ips_sample = Ok ips_sample_text /\
  forall h terms h' terms' name opts name' opts', In (h, terms) ips_sample -> In (h', terms') ips_sample -> win_asks h name opts -> win_asks h' name' opts' -> name <> (name' ++ "-policy")%string.
Proof.
  split; [|split; [vm_compute; reflexivity|]].
  - constructor.
    + intros h terms I N. destruct I as [E|[E|[E|[]]]]; apply pair_equal_spec in E; destruct E as (<- & <-); [|destruct N; reflexivity|].
      * exists "server", ["inet"]. split; [reflexivity|]. split; [reflexivity|]. split; [discriminate|]. intros t J F M Ne. apply ips_sample_ok. destruct J as [<-|[<-|[<-|[<-|[<-|[<-|[]]]]]]]; try (cbn; tauto).
        -- specialize (F 100 eq_refl). lia.
        -- destruct Ne as (_ & Ne). destruct Ne. left. reflexivity.
      * exists "desk", []. split; [reflexivity|]. split; [reflexivity|]. split; [discriminate|]. intros t J F M _. destruct J as [<-|[<-|[]]]; [destruct M as ([X|[X|[]]] & _); discriminate X|]. apply ips_sample_ok. cbn. tauto.
    + unfold ips_sample, ips_terms, win_terms_of. cbn. repeat (constructor; [cbn; intros X; repeat (destruct X as [X|X]; [discriminate X|]); destruct X|]). constructor.
  - intros h terms h' terms' name opts name' opts' I I' A A'. unfold win_asks in A, A'.
    destruct I as [E|[E|[E|[]]]]; apply pair_equal_spec in E; destruct E as (<- & <-); cbn in A; try discriminate A; injection A as <- <-;
      destruct I' as [E|[E|[E|[]]]]; apply pair_equal_spec in E; destruct E as (<- & <-); cbn in A'; try discriminate A'; injection A' as <- <-; discriminate.
Qed.

(** *** Policies whose rules have other verdicts *)

Definition kpkt (src dst : Z) (proto : string) (sport dport : Z) : packet :=
  mkPacket (V4, src) (V4, dst) proto sport dport "" 0 (fun _ => False)
    (fun _ => False) (fun _ => False) (fun _ => False) (fun _ => False)
    "0" "" 0 64 100 64 "" "" "" "" "" "" "" "inet" "windows_ipsec".
Lemma kpkt_traffic src dst proto sport dport : 0 <= src < 2 ^ 32 -> 0 <= dst < 2 ^ 32 -> proto <> "icmpv6" -> ips_traffic (kpkt src dst proto sport dport).
Proof. intros A B C. constructor; cbn; auto. Qed.
Definition ips_gives (lines : list string) (policy : string) (p : packet) (o : string) : Prop := exists cmds, ips_read lines = Some cmds /\ ips_says cmds policy p o.
Lemma not_port t p : t_destination_port t = [(0, 1)] -> 1 < p_dport p -> ~ term_matches t p.
Proof. intros E N (_ & _ & (_ & _ & X) & _). rewrite E in X. destruct X as [X|(r & [<-|[]] & B)]; [discriminate X|]. unfold SpecPorts.in_range in B. cbn in B. lia. Qed.
(** A term for a range of ports from 0 is for all ports. *)
Theorem C89_port_zero_refuted : exists lines p,
  let t := set_protocol ["tcp"] (set_destination_port [(0, 1)] (accept "t")) in
  ips_text 0 [((Some ["server"], []), [t])] = Ok lines /\ ips_traffic p /\ ips_gives lines "server" p "permit" /\ ~ term_matches t p /\ ~ term_matches t (mirror p).
Proof.
  eexists. exists (kpkt 1 2 "tcp" 99 22). cbv zeta. split; [vm_compute; reflexivity|]. split; [apply kpkt_traffic; try lia; discriminate|]. split; [|split; apply not_port; try reflexivity; cbn; lia].
  eexists. split; [vm_compute; reflexivity|]. eexists. eexists. eexists. split; [do 7 right; left; reflexivity|]. split.
  - eexists. split; [do 3 right; left; reflexivity|]. left. unfold match_says. cbn [im_src im_dst im_sport im_dport im_proto]. split; [intros ? X; discriminate X|split; [intros ? X; discriminate X|split; [intros ? X; discriminate X|split; [intros ? X; discriminate X|right; reflexivity]]]].
  - exists [IPolicy "server-policy"; IList "s_t-list"]. eexists. split; [reflexivity|]. intros o' [X|[X|[]]]; discriminate X.
Qed.
Print Assumptions C89_port_zero_refuted.
(** Of several ranges of ports only the last is written: what a term denies may pass. *)
Theorem C89_port_ranges_refuted : exists lines p,
  let t := set_action ["deny"] (set_protocol ["tcp"] (set_destination_port [(22, 22); (80, 80)] (blank "t"))) in
  ips_text 0 [((Some ["server"], []), [t])] = Ok lines /\ ips_traffic p /\ (forall o, ~ ips_gives lines "server" p o) /\ term_matches t p.
Proof.
  eexists. exists (kpkt 1 2 "tcp" 99 22). cbv zeta. split; [vm_compute; reflexivity|]. split; [apply kpkt_traffic; try lia; discriminate|]. split.
  - intros o (cmds & R & name & l & a & _ & (m & Im & S) & _). assert (E : cmds = [IPolicy "server-policy"; IList "s_t-list"; IAction "s_t-action" "block"; IFilter "s_t-list" (mkIpsMatch None None None (Some 80) "tcp"); IList "s_t-list"; IAction "s_t-action" "block"; IRule "s_t-rule" "server" "s_t-list" "s_t-action"]).
    { vm_compute in R. congruence. }
    subst cmds. cbn [In] in Im. repeat (destruct Im as [Im|Im]; [try discriminate Im|]); [|destruct Im]. injection Im as _ <-. destruct S as [(_ & _ & _ & X & _)|(_ & _ & _ & X & _)]; specialize (X 80 eq_refl); discriminate X.
  - apply (quiet_matches "windows_ipsec"); [constructor; repeat split; try reflexivity; try (left; reflexivity); intros []|reflexivity|].
    split; [split; [left; reflexivity|intros (? & [] & _)]|]. split; [split; [left; reflexivity|intros (? & [] & _)]|]. split; [right; eexists; split; [left; reflexivity|reflexivity]|].
    split; [left; reflexivity|]. split; [right; eexists; split; [left; reflexivity|unfold SpecPorts.in_range; cbn; lia]|]. split; [intros ? []|left; reflexivity].
Qed.
Print Assumptions C89_port_ranges_refuted.
(** Terms of the same name share their list if their filters start with the same letter: what is blocked by
    one is permitted by the other. *)
Theorem C89_names_clash_refuted : exists lines p,
  let t := set_protocol ["tcp"] (accept "t") in
  let u := set_action ["deny"] (set_protocol ["udp"] (blank "t")) in
  ips_text 0 [((Some ["server"], []), [t]); ((Some ["site"], []), [u])] = Ok lines /\ ips_traffic p /\ ips_gives lines "site" p "permit" /\ ~ term_matches t p /\ ~ term_matches t (mirror p).
Proof.
  assert (N : forall p, p_proto p = "udp" -> ~ term_matches (set_protocol ["tcp"] (accept "t")) p).
  { intros p E (_ & (X & _) & _). destruct X as [X|(q & [<-|[]] & X)]; [discriminate X|congruence]. }
  eexists. exists (kpkt 1 2 "udp" 99 22). cbv zeta. split; [vm_compute; reflexivity|]. split; [apply kpkt_traffic; try lia; discriminate|]. split; [|split; apply N; reflexivity].
  eexists. split; [vm_compute; reflexivity|]. eexists. eexists. eexists. split; [do 13 right; left; reflexivity|]. split.
  - eexists. split; [do 10 right; left; reflexivity|]. left. unfold match_says. cbn [im_src im_dst im_sport im_dport im_proto]. split; [intros ? X; discriminate X|split; [intros ? X; discriminate X|split; [intros ? X; discriminate X|split; [intros ? X; discriminate X|right; reflexivity]]]].
  - exists [IPolicy "server-policy"; IList "s_t-list"]. eexists. split; [reflexivity|]. intros o' [X|[X|[]]]; discriminate X.
Qed.
Print Assumptions C89_names_clash_refuted.
(** Commands that are not accepted: one port without tcp or udp, and protocols by names that are not known. *)
Theorem C89_commands_refuted :
  (exists lines, ips_text 0 [((Some ["server"], []), [set_destination_port [(22, 22)] (accept "t")])] = Ok lines /\ ips_read lines = None) /\
  (exists lines, ips_text 0 [((Some ["server"], []), [set_protocol ["gre"] (accept "t")])] = Ok lines /\ ips_read lines = None).
Proof. split; (eexists; split; [vm_compute; reflexivity|vm_compute; reflexivity]). Qed.
Print Assumptions C89_commands_refuted.
