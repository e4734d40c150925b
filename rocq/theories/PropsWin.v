(** Theorems C86: commands for the advanced firewall of Windows (windows.py, windows_advfirewall.py). *)
From Coq Require Import Lia ZifyBool ZifyNat.
From Verif Require Import SpecCisco Samples BaseFacts PyStrFacts TextProofs CiscoProofs QuietTerm GceProofs WinPolicy.
From Verif Require Import PropsPolicy SpecWin.
Local Open Scope string_scope.
Local Open Scope list_scope.
Local Open Scope Z_scope.

(** ** C86: the rules decide as the policy file says *)

(** All commands are accepted.  The firewall blocks a packet iff some term in force of the headers for
    its direction and family denies it, and allows it iff some accepts it and none denies it; terms for
    established connections are left to the firewall, which allows replies.  Missing for the full
    claim: the policies of the refutations below. *)
Theorem C86_rules_decide_as_policy_partial : forall today fs lines,
  adv_policy_ok today fs -> adv_text today fs = Ok lines ->
  exists rules, adv_read lines = Some rules /\
    forall d p, In d ["in"; "out"] -> adv_traffic p -> one_family fs d (fst (p_src p)) ->
    forall o, adv_decides rules d p o <-> block_wins (adv_term_says today d p) (win_terms_of fs) o.
Proof. exact rules_decide. Qed.
Print Assumptions C86_rules_decide_as_policy_partial.
(** This is the decision of the first term that matches if no term that denies comes after one that
    accepts. *)
Theorem C86_rules_decide_in_order_partial : forall today fs lines,
  adv_policy_ok today fs -> denies_first fs -> adv_text today fs = Ok lines ->
  exists rules, adv_read lines = Some rules /\
    forall d p, In d ["in"; "out"] -> adv_traffic p -> one_family fs d (fst (p_src p)) ->
    forall o, adv_decides rules d p o <-> first_says (adv_term_says today d p) (win_terms_of fs) o.
Proof.
  intros today fs lines Po Df H. destruct (rules_decide today fs lines Po H) as (rules & R & S). exists rules. split; [exact R|]. intros d p Hd Tp One o.
  rewrite (S d p Hd Tp One o). apply denies_first_wins, Df.
Qed.
Print Assumptions C86_rules_decide_in_order_partial.

(** *** A policy that meets the hypotheses *)
Definition wbad : term := Eval vm_compute in set_source_address [v4 10 6 0 0 16; v6 db8 32] (set_action ["deny"] (blank "bad")).
Definition wweb : term := Eval vm_compute in set_protocol ["tcp"; "udp"] (set_destination_port [(80, 80); (8000, 8080)] (set_source_address [v4 10 0 0 0 8; v4 0 0 0 0 0] (accept "web"))).
Definition wping : term := Eval vm_compute in set_protocol ["icmp"] (set_icmp_type ["echo-request"; "unreachable"] (accept "ping")).
Definition wah : term := Eval vm_compute in set_protocol ["ah"; "vrrp"] (accept "ah").
Definition wv6 : term := Eval vm_compute in set_protocol ["icmpv6"] (accept "v6").
Definition west : term := Eval vm_compute in set_option ["tcp-established"] (set_protocol ["tcp"] (accept "est")).
Definition wold : term := Eval vm_compute in set_expiration (Some 100) (set_protocol ["gre"] (accept "old")).
Definition wother : term := Eval vm_compute in set_platform ["juniper"] (set_protocol ["gre"] (accept "other")).
Definition wsend : term := Eval vm_compute in set_source_port [(1024, 65535)] (set_protocol ["tcp"] (accept "send")).
Definition win_sample : list (win_header * list term) :=
  [((Some ["in"; "inet"], ["Servers."]), [wbad; wold; wweb; wping; wah; wv6; west]); ((None, []), [wother]); ((Some ["Out"; "inet6"], []), [wother; wsend])].
Definition win_sample_text : list string :=
  [": Windows_advfirewall in Policy"; ": Servers."; ":"; ": $Id:$"; ": $Date:$"; ": $Revision:$"; ": inet";
   "netsh advfirewall firewall add rule name=i_bad enable=yes interfacetype=any dir=in remoteip=10.6.0.0/16 localip=any protocol=any action=block";
   "netsh advfirewall firewall add rule name=i_bad enable=yes interfacetype=any dir=in remoteip=2001:db8::/32 localip=any protocol=any action=block";
   "netsh advfirewall firewall add rule name=i_web enable=yes interfacetype=any dir=in remoteip=10.0.0.0/8 localip=any localport=80,8000-8080 protocol=tcp action=allow";
   "netsh advfirewall firewall add rule name=i_web enable=yes interfacetype=any dir=in remoteip=10.0.0.0/8 localip=any localport=80,8000-8080 protocol=udp action=allow";
   "netsh advfirewall firewall add rule name=i_web enable=yes interfacetype=any dir=in remoteip=any localip=any localport=80,8000-8080 protocol=tcp action=allow";
   "netsh advfirewall firewall add rule name=i_web enable=yes interfacetype=any dir=in remoteip=any localip=any localport=80,8000-8080 protocol=udp action=allow";
   "netsh advfirewall firewall add rule name=i_ping enable=yes interfacetype=any dir=in remoteip=any localip=any protocol=icmpv4:3,any action=allow";
   "netsh advfirewall firewall add rule name=i_ping enable=yes interfacetype=any dir=in remoteip=any localip=any protocol=icmpv4:8,any action=allow";
   "netsh advfirewall firewall add rule name=i_ah enable=yes interfacetype=any dir=in remoteip=any localip=any protocol=51 action=allow";
   "netsh advfirewall firewall add rule name=i_ah enable=yes interfacetype=any dir=in remoteip=any localip=any protocol=112 action=allow";
   ": Windows_advfirewall Out Policy"; ": $Id:$"; ": $Date:$"; ": $Revision:$"; ": inet6";
   "netsh advfirewall firewall add rule name=O_send enable=yes interfacetype=any dir=Out localip=any remoteip=any localport=1024-65535 protocol=tcp action=allow"; ""].
Lemma win_sample_ok t : In t [wbad; wweb; wping; wah; wv6] -> adv_term_ok V4 t.
Proof.
  intros I. constructor.
  - destruct I as [<-|[<-|[<-|[<-|[<-|[]]]]]]; reflexivity.
  - intros q J. apply str_in_spec. destruct I as [<-|[<-|[<-|[<-|[<-|[]]]]]]; cbn in J; repeat (destruct J as [<-|J]; [reflexivity|]); destruct J.
  - destruct I as [<-|[<-|[<-|[<-|[<-|[]]]]]]; cbn; intros J; repeat (destruct J as [J|J]; try discriminate J); try destruct J; reflexivity.
  - destruct I as [<-|[<-|[<-|[<-|[<-|[]]]]]]; intros [X|X]; try (destruct (X eq_refl)). split; [discriminate|]. intros q J. exact J.
  - intros r J. destruct I as [<-|[<-|[<-|[<-|[<-|[]]]]]]; cbn in J; repeat (destruct J as [<-|J]; [cbn; lia|]); destruct J.
  - destruct I as [<-|[<-|[<-|[<-|[<-|[]]]]]]; reflexivity.
  - destruct I as [<-|[<-|[<-|[<-|[<-|[]]]]]]; (split; [valid_tac|split; [valid_tac|]]); intros n J Z; cbn in J; repeat (destruct J as [<-|J]; [first [reflexivity|discriminate Z]|]); destruct J.
  - destruct I as [<-|[<-|[<-|[<-|[<-|[]]]]]]; repeat split; discriminate.
Qed.
Example C86_example : adv_policy_ok 100 win_sample /\ denies_first win_sample /\ adv_text 100 win_sample = Ok win_sample_text /\
  one_family win_sample "in" V4 /\ one_family win_sample "out" V6.
Proof.
  split; [|split; [|split; [vm_compute; reflexivity|split]]].
  - intros h terms I N. destruct I as [E|[E|[E|[]]]]; apply pair_equal_spec in E; destruct E as (<- & <-); [|destruct N; reflexivity|].
    + exists "in", ["inet"]. split; [reflexivity|]. split; [left; reflexivity|]. intros t J F M Ne. apply win_sample_ok. destruct J as [<-|[<-|J]]; [left; reflexivity|specialize (F 100 eq_refl); lia|].
      cbn in J. destruct J as [<-|[<-|[<-|[<-|[<-|[]]]]]]; try (cbn; tauto). destruct Ne as (_ & Ne). destruct Ne. left. reflexivity.
    + exists "Out", ["inet6"]. split; [reflexivity|]. split; [right; left; reflexivity|]. intros t J F M _. destruct J as [<-|[<-|[]]]; [destruct M as ([X|[X|[]]] & _); discriminate X|].
      constructor; try reflexivity.
      * intros q [<-|[]]. left. reflexivity.
      * intros [X|[]]. discriminate X.
      * intros _. split; [discriminate|]. intros q J. left. destruct J as [J|[]]. exact J.
      * intros r [<-|[]]. cbn. lia.
      * split; [valid_tac|]. split; [valid_tac|]. intros n [].
      * repeat split; discriminate.
  - intros u x v y w E Ax. unfold win_sample, win_terms_of in E. cbn [flat_map map app fst snd] in E.
    do 10 (destruct u as [|? u]; [cbn [app] in E; injection E as <- E; try discriminate Ax; intros Ay;
      repeat (destruct v as [|? v]; [cbn [app] in E; try discriminate E; injection E as <- E; discriminate Ay|cbn [app] in E; try discriminate E; injection E as _ E])|cbn [app] in E; injection E as _ E]).
    destruct u; discriminate E.
  - intros h terms name opts I Ha E. destruct I as [X|[X|[X|[]]]]; apply pair_equal_spec in X; destruct X as (<- & <-); unfold win_asks in Ha; cbn in Ha; try discriminate Ha; injection Ha as <- <-; [reflexivity|discriminate E].
  - intros h terms name opts I Ha E. destruct I as [X|[X|[X|[]]]]; apply pair_equal_spec in X; destruct X as (<- & <-); unfold win_asks in Ha; cbn in Ha; try discriminate Ha; injection Ha as <- <-; [discriminate E|reflexivity].
Qed.

(** *** Policies whose rules decide differently *)

Definition wpkt (v : ver) (src dst : Z) (proto : string) (sport dport : Z) : packet :=
  mkPacket (v, src) (v, dst) proto sport dport "" 0 (fun _ => False)
    (fun _ => False) (fun _ => False) (fun _ => False) (fun _ => False)
    "0" "" 0 64 100 64 "" "" "" "" "" "" "" "inet" "windows_advfirewall".
Definition win_gives (lines : list string) (d : string) (p : packet) (o : string) : Prop := exists rules, adv_read lines = Some rules /\ adv_decides rules d p o.
Lemma wpkt_traffic v src dst proto sport dport : 0 <= src < 2 ^ 32 -> 0 <= dst < 2 ^ 32 -> (proto <> if ver_eqb v V4 then "icmpv6" else "icmp") -> adv_traffic (wpkt v src dst proto sport dport).
Proof. intros A B C. assert (2 ^ 32 <= 2 ^ width v) by (apply Z.pow_le_mono_r; destruct v; cbn; lia). constructor; try reflexivity; [cbn [wpkt p_src fst snd]; lia|cbn [wpkt p_dst fst snd]; lia|exact C]. Qed.
Ltac win_quiet := constructor; repeat split; try reflexivity; try (left; reflexivity); intros [].
(** The order of the terms is lost: a term that denies takes back what an earlier one accepts. *)
Theorem C86_order_refuted : exists lines p,
  let fs := [((Some ["in"], []), [set_protocol ["tcp"] (set_destination_port [(22, 22)] (accept "ssh")); set_action ["deny"] (blank "rest")])] in
  adv_policy_ok 0 fs /\ adv_text 0 fs = Ok lines /\ adv_traffic p /\ win_gives lines "in" p "block" /\ first_says (adv_term_says 0 "in" p) (win_terms_of fs) "allow".
Proof.
  eexists. exists (wpkt V4 1 2 "tcp" 99 22). cbv zeta. split; [|split; [vm_compute; reflexivity|split; [apply wpkt_traffic; cbn; try lia; discriminate|split]]].
  - intros h terms I _. destruct I as [E|[]]. apply pair_equal_spec in E. destruct E as (<- & <-). exists "in", []. split; [reflexivity|]. split; [left; reflexivity|]. intros t J _ _ _. cbn in J.
    destruct J as [<-|[<-|[]]]; constructor; try reflexivity; try (intros ? []; fail); try (repeat split; discriminate).
    + intros q [<-|[]]. left. reflexivity.
    + intros [X|[]]. discriminate X.
    + intros _. split; [discriminate|]. intros q [<-|[]]. left. reflexivity.
    + intros r [<-|[]]. cbn. lia.
    + split; [constructor|]. split; [constructor|]. intros ? [].
    + intros [].
    + intros [X|X]; destruct (X eq_refl).
    + split; [constructor|]. split; [constructor|]. intros ? [].
  - eexists. split; [vm_compute; reflexivity|]. left. split; [reflexivity|]. eexists. split; [right; left; reflexivity|]. split; [|reflexivity]. split; [reflexivity|]. split; [exact Logic.I|]. cbn.
    split; [left; reflexivity|]. split; [left; reflexivity|]. split; intros ? X; discriminate X.
  - exists []. eexists. eexists. split; [reflexivity|]. split; [|intros ? ? []]. exists "in", [], "accept". split; [reflexivity|]. split; [reflexivity|]. split; [reflexivity|]. split; [intros ? X; discriminate X|].
    split; [split; [left; reflexivity|intros []]|]. split; [split; intros []|]. split; [|split; reflexivity].
    apply (quiet_matches "windows_advfirewall"); [win_quiet|reflexivity|].
    split; [split; [left; reflexivity|intros (? & [] & _)]|]. split; [split; [left; reflexivity|intros (? & [] & _)]|]. split; [right; eexists; split; [left; reflexivity|reflexivity]|].
    split; [left; reflexivity|]. split; [right; eexists; split; [left; reflexivity|unfold SpecPorts.in_range; cbn; lia]|]. split; [intros ? []|left; reflexivity].
Qed.
Print Assumptions C86_order_refuted.
(** A header for IPv4 opens the host for IPv6 as well, because all addresses of a family are written as any. *)
Theorem C86_family_refuted : exists lines p,
  let fs := [((Some ["in"; "inet"], []), [set_protocol ["tcp"] (accept "web")])] in
  adv_text 0 fs = Ok lines /\ adv_traffic p /\ win_gives lines "in" p "allow" /\ (forall x o, In x (win_terms_of fs) -> ~ adv_term_says 0 "in" p x o).
Proof.
  eexists. exists (wpkt V6 1 2 "tcp" 99 22). cbv zeta. split; [vm_compute; reflexivity|]. split; [apply wpkt_traffic; cbn; try lia; discriminate|]. split.
  - eexists. split; [vm_compute; reflexivity|]. right. split; [reflexivity|]. split.
    + eexists. split; [left; reflexivity|]. split; [|reflexivity]. split; [reflexivity|]. split; [reflexivity|]. cbn. split; [left; reflexivity|]. split; [left; reflexivity|]. split; intros ? X; discriminate X.
    + intros (r & [<-|[]] & _ & X). discriminate X.
  - intros x o [<-|[]] (name & opts & a & Ha & _ & V & _). unfold win_asks in Ha. cbn in Ha. injection Ha as <- <-. discriminate V.
Qed.
Print Assumptions C86_family_refuted.
(** The same for a term: all addresses of IPv6 as sources are all addresses. *)
Theorem C86_everything_refuted : exists lines p,
  let t := set_source_address [mkNet V6 0 0 "" "" ""] (accept "web") in
  adv_text 0 [((Some ["in"; "inet"], []), [t])] = Ok lines /\ adv_traffic p /\ win_gives lines "in" p "allow" /\ ~ term_matches t p.
Proof.
  eexists. exists (wpkt V4 1 2 "tcp" 99 22). cbv zeta. split; [vm_compute; reflexivity|]. split; [apply wpkt_traffic; cbn; try lia; discriminate|]. split.
  - eexists. split; [vm_compute; reflexivity|]. right. split; [reflexivity|]. split.
    + eexists. split; [left; reflexivity|]. split; [|reflexivity]. split; [reflexivity|]. split; [exact Logic.I|]. cbn. split; [left; reflexivity|]. split; [left; reflexivity|]. split; intros ? X; discriminate X.
    + intros (r & [<-|[]] & _ & X). discriminate X.
  - intros ((_ & (X & _) & _) & _). destruct X as [X|(n & [<-|[]] & C & _)]; [discriminate X|discriminate C].
Qed.
Print Assumptions C86_everything_refuted.
(** A term that denies tcp and the ICMP of the other family is left out as a whole. *)
Theorem C86_other_icmp_refuted : exists lines p,
  let t := set_action ["deny"] (set_protocol ["tcp"; "icmpv6"] (blank "t")) in
  adv_text 0 [((Some ["in"; "inet"], []), [t; accept "rest"])] = Ok lines /\ adv_traffic p /\ win_gives lines "in" p "allow" /\ term_matches t p.
Proof.
  eexists. exists (wpkt V4 1 2 "tcp" 99 22). cbv zeta. split; [vm_compute; reflexivity|]. split; [apply wpkt_traffic; cbn; try lia; discriminate|]. split.
  - eexists. split; [vm_compute; reflexivity|]. right. split; [reflexivity|]. split.
    + eexists. split; [left; reflexivity|]. split; [|reflexivity]. split; [reflexivity|]. split; [exact Logic.I|]. cbn. split; [left; reflexivity|]. split; [left; reflexivity|]. split; intros ? X; discriminate X.
    + intros (r & [<-|[]] & _ & X). discriminate X.
  - apply (quiet_matches "windows_advfirewall"); [win_quiet|reflexivity|].
    split; [split; [left; reflexivity|intros (? & [] & _)]|]. split; [split; [left; reflexivity|intros (? & [] & _)]|]. split; [right; eexists; split; [left; reflexivity|reflexivity]|].
    split; [left; reflexivity|]. split; [left; reflexivity|]. split; [intros ? []|left; reflexivity].
Qed.
Print Assumptions C86_other_icmp_refuted.
(** Commands that are not accepted: ports without a protocol, protocols by names that are not known, and
    headers with other names than in and out. *)
Theorem C86_commands_refuted :
  (exists lines, adv_text 0 [((Some ["in"], []), [set_destination_port [(22, 22)] (accept "t")])] = Ok lines /\ adv_read lines = None) /\
  (exists lines, adv_text 0 [((Some ["in"], []), [set_protocol ["gre"] (accept "t")])] = Ok lines /\ adv_read lines = None) /\
  (exists lines, adv_text 0 [((Some ["servers"], []), [accept "t"])] = Ok lines /\ adv_read lines = None).
Proof. split; [|split]; (eexists; split; [vm_compute; reflexivity|vm_compute; reflexivity]). Qed.
Print Assumptions C86_commands_refuted.
(** Flags are ignored: a term that denies the start of connections denies all of tcp. *)
Theorem C86_flags_refuted : exists lines p,
  let t := set_action ["deny"] (set_option ["initial"] (set_protocol ["tcp"] (blank "t"))) in
  adv_text 0 [((Some ["in"; "inet"], []), [t])] = Ok lines /\ adv_traffic p /\ win_gives lines "in" p "block" /\ ~ term_matches t p.
Proof.
  eexists. exists (wpkt V4 1 2 "tcp" 99 22). cbv zeta. split; [vm_compute; reflexivity|]. split; [apply wpkt_traffic; cbn; try lia; discriminate|]. split.
  - eexists. split; [vm_compute; reflexivity|]. left. split; [reflexivity|].
    eexists. split; [left; reflexivity|]. split; [|reflexivity]. split; [reflexivity|]. split; [reflexivity|]. cbn. split; [left; reflexivity|]. split; [left; reflexivity|]. split; intros ? X; discriminate X.
  - intros (_ & _ & _ & _ & (_ & X & _) & _). exact (X "initial" (or_introl eq_refl)).
Qed.
Print Assumptions C86_flags_refuted.
