(** Theorems C31, C32, C40, C60 and C61: iptables and speedway tables (iptables.py, speedway.py). *)
From Coq Require Import Lia.
From Verif Require Import SpecIptables Samples BaseFacts PyStrFacts TextProofs CiscoProofs CiscoTerm CiscoEst IptText IptProofs IptPolicy PropsPolicy.
Local Open Scope string_scope.
Local Open Scope list_scope.
Local Open Scope Z_scope.

(** ** C31: a table decides as the policy says *)

(** The text of a policy reads as a table. If that table can be loaded, each filter decides
    every packet as the first term that matches it says: a verdict of the first matching term
    whose action is not next, none when there is no such term. For filters of one family whose
    terms can be expressed; missing for the full claim: the terms of the refutations below,
    verbatim terms, and interfaces with a wildcard. *)
Theorem C31_table_decides_as_policy_partial : forall speedway today v fs lines,
  ipt_policy speedway today fs = Ok lines -> ipt_policy_ok speedway today v fs ->
  exists cmds, read_table v (join nl_text lines) = Some cmds /\
    (loads builtin_chains cmds -> forall before h terms p, filter_at fs before h terms -> ipt_traffic (ipt_cfg_of speedway before h) p ->
       forall outcome, table_decides cmds (ih_name h) p outcome <->
         first_says (ipt_rule (ipt_cfg_of speedway before h) today p) terms outcome).
Proof. exact policy_decides. Qed.
Print Assumptions C31_table_decides_as_policy_partial.

Definition ipkt (v : ver) (src dst : Z) (proto : string) (sport dport : Z) (flags : string -> Prop) (ty : string) (code : Z) : packet :=
  mkPacket (v, src) (v, dst) proto sport dport ty code (fun o => o = "sample" \/ flags o)
    (fun _ => False) (fun _ => False) (fun _ => False) (fun _ => False)
    "0" "" 0 64 100 64 "" "" "" "" "" "" "" (match v with V4 => "inet" | V6 => "inet6" end) "iptables".
Definition iweb : term :=
  set_protocol ["tcp"; "udp"] (set_destination_port [(80, 80); (443, 444)]
    (set_source_address [v4t 10 0 0 0 8 "office" "" ""; v4 192 168 0 0 16] (set_source_address_exclude [v4 10 1 0 0 16]
      (set_comment ["allow web"] (set_owner (Some "net-team") (set_logging ["true"] (accept "web"))))))).
Definition iold : term := set_expiration (Some 100) (set_action ["deny"] (blank "old")).
Definition ireply : term := set_option ["established"] (accept "web").
Definition ideny : term := set_action ["deny"] (blank "rest").
Definition input : ipt_header := mkIptHeader "INPUT" ["inet"; "DROP"] ["edge"].
Definition extra : ipt_header := mkIptHeader "extra" [] [].
Definition two : list (ipt_header * list term) := [(input, [iold; iweb]); (extra, [ireply; ideny])].
Ltac ipt_simple := constructor;
  [unfold only_ipt_conditions; cbn; repeat split
  |split; (split; [discriminate|reflexivity])
  |eexists; eexists; split; [reflexivity|cbn; auto]
  |split; [valid_tac|split; [valid_tac|try (intros X; destruct (X eq_refl))]]
  |split; [valid_tac|split; [valid_tac|try (intros X; destruct (X eq_refl))]]
  | | | | | | | | | |].
Ltac no_in := let X := fresh in intros; cbn in *; try (match goal with H : exists _, _ |- _ => destruct H as (? & ? & ?) end); try contradiction; intuition (try discriminate; try congruence).
Lemma ideny_ok : ipt_term_ok (ipt_cfg_of false [input] extra) ideny.
Proof.
  ipt_simple; [no_in|repeat split; no_in|no_in|split; no_in|no_in|split; [cbn; auto|split; [|discriminate]]|no_in|repeat split; no_in|no_in|no_in].
  intros ((o & [] & _) & _).
Qed.
Lemma ireply_ok : ipt_term_ok (ipt_cfg_of false [input] extra) ireply.
Proof.
  ipt_simple; [no_in|repeat split; no_in|no_in|split; no_in| |split; [cbn; auto|split; [|discriminate]]|no_in|repeat split; no_in|no_in|no_in].
  - intros o [<-|[]]. right. right. left. split; [left; reflexivity|left; reflexivity].
  - intros ((o & [<-|[]] & I) & _). cbn in I. intuition discriminate.
Qed.
Lemma iweb_ok : ipt_term_ok (ipt_cfg_of false [] input) iweb.
Proof.
  ipt_simple.
  - intros _. exists (V4, ten 2 0 1). split; [right; eexists; split; [left; reflexivity|vm_compute; intuition congruence]|].
    intros (n & [<-|[]] & C). vm_compute in C. intuition congruence.
  - intros q [<-|[<-|[]]]; (split; [apply str_in_spec; reflexivity|discriminate]).
  - repeat split; no_in.
  - intros r [<-|[<-|[]]]; (split; [unfold port_ok; cbn; lia|]); (split; [discriminate|]); cbn; intuition.
  - split; no_in.
  - no_in.
  - split; [cbn; auto|split; [|discriminate]]. intros ((o & [] & _) & _).
  - intros (q & I & [<-|[<-|[]]]); cbn in I; intuition discriminate.
  - repeat split; no_in.
  - no_in.
  - intros s [[<-|[]]|X]; [reflexivity|]. injection X as <-. reflexivity.
Qed.
(** A packet without TCP flags. *)
Lemma ipkt_traffic c src dst proto sport dport ty code : ic_speedway c = false -> ic_state c = true ->
  0 <= src < 2 ^ width (ic_ver c) -> 0 <= dst < 2 ^ width (ic_ver c) ->
  (ic_ver c = V4 -> proto <> "icmpv6" /\ proto <> "hopopt") -> (ic_ver c = V6 -> proto <> "icmp") ->
  ipt_traffic c (ipkt (ic_ver c) src dst proto sport dport (fun _ => False) ty code).
Proof.
  intros Sp St A B C D. unfold ipt_traffic, ipkt, syn_only, flags_say; cbn -[Z.pow]. rewrite St, Sp.
  repeat match goal with |- _ /\ _ => split end; try reflexivity; try assumption; try apply A; try apply B;
    try (right; intros [X|[]]; discriminate X); try (left; reflexivity); try discriminate.
  all: try (split; intros X; exfalso; cbn in X; intuition discriminate).
  - split; [intros [X|[]]; discriminate X|]. intros X. exfalso. specialize (X "syn" (or_intror (or_introl eq_refl))). destruct (proj2 X (or_introl eq_refl)) as (_ & [Y|[]]); discriminate Y.
  - split; [intros [X|[]]; discriminate X|]. intros X. exfalso. specialize (X "syn" (or_intror (or_introl eq_refl))). destruct (proj2 X (or_introl eq_refl)) as (_ & [Y|[]]); discriminate Y.
  - split; [intros [X|[]]; discriminate X|]. intros X. exfalso. specialize (X "fin" (or_introl eq_refl)). destruct X as [X|[]]; discriminate X.
Qed.
Ltac seen := apply ipkt_traffic; try reflexivity; try (vm_compute; intuition congruence); try discriminate; intros _; try (split; discriminate); discriminate.
Example C31_example : ipt_policy_ok false 100 V4 two /\
  ipt_policy false 100 two = Ok
    ["# Iptables INPUT Policy"; "# edge"; "#"; "# $Id:$"; "# $Date:$"; "# $Revision:$"; "# inet"; "-P INPUT DROP"; "-N I_web"; "-A INPUT -j I_web";
     "-A I_web -m comment --comment ""allow web"""; "-A I_web -m comment --comment ""Owner: net-team"""; "-A I_web -s 10.1.0.0/16 -j RETURN";
     "-A I_web -p tcp -m multiport --dports 80,443:444 -s 10.0.0.0/8 -m state --state NEW,ESTABLISHED,RELATED -j LOG --log-prefix web";
     "-A I_web -p tcp -m multiport --dports 80,443:444 -s 10.0.0.0/8 -m state --state NEW,ESTABLISHED,RELATED -j ACCEPT";
     "-A I_web -p udp -m multiport --dports 80,443:444 -s 10.0.0.0/8 -m state --state NEW,ESTABLISHED,RELATED -j LOG --log-prefix web";
     "-A I_web -p udp -m multiport --dports 80,443:444 -s 10.0.0.0/8 -m state --state NEW,ESTABLISHED,RELATED -j ACCEPT";
     "-A I_web -p tcp -m multiport --dports 80,443:444 -s 192.168.0.0/16 -m state --state NEW,ESTABLISHED,RELATED -j LOG --log-prefix web";
     "-A I_web -p tcp -m multiport --dports 80,443:444 -s 192.168.0.0/16 -m state --state NEW,ESTABLISHED,RELATED -j ACCEPT";
     "-A I_web -p udp -m multiport --dports 80,443:444 -s 192.168.0.0/16 -m state --state NEW,ESTABLISHED,RELATED -j LOG --log-prefix web";
     "-A I_web -p udp -m multiport --dports 80,443:444 -s 192.168.0.0/16 -m state --state NEW,ESTABLISHED,RELATED -j ACCEPT";
     "# Iptables extra Policy"; "# $Id:$"; "# $Date:$"; "# $Revision:$"; "# inet"; "-N extra"; "-N e_web"; "-A extra -j e_web";
     "-A e_web -p all -m state --state ESTABLISHED,RELATED -j ACCEPT"; "-N e_rest"; "-A extra -j e_rest"; "-A e_rest -p all -j DROP"; ""] /\
  ipt_traffic (ipt_cfg_of false [] input) (ipkt V4 (ten 2 0 1) 5 "tcp" 3000 80 (fun _ => False) "" 0).
Proof.
  split; [|split; [vm_compute; reflexivity|]].
  - constructor.
    + intros h ts [E|[E|[]]]; injection E as <- <-; cbn; intuition discriminate.
    + split; [repeat constructor; cbn; intuition discriminate|]. intros h ts [E|[E|[]]]; injection E as <- <-; (split; [discriminate|reflexivity]).
    + intros before h terms t (f1 & f2 & E & ->) I L. destruct f1 as [|x [|y [|z f1]]]; try discriminate E.
      * injection E as <- <- <-. destruct I as [<-|[<-|[]]]; [|exact iweb_ok]. specialize (L 100 eq_refl). lia.
      * injection E as <- <- <- <-. destruct I as [<-|[<-|[]]]; [exact ireply_ok|exact ideny_ok].
  - seen.
Qed.

(** The rules of a term accept a packet that the term does not match. *)
Definition overaccepts (c : ipt_cfg) (t : term) (p : packet) : Prop :=
  exists lines cmds, ipt_term c t = Ok lines /\ read_table (ic_ver c) (join nl_text lines) = Some cmds /\
    chain_gives 1 cmds (chain_of c (t_name t)) p "ACCEPT" /\ ~ term_matches t p.
Definition ipt4 : ipt_cfg := mkIpt false "INPUT" V4 true true.
Definition ipt6 : ipt_cfg := mkIpt false "INPUT" V6 true true.
Ltac read_lines := cbv -[prefix_says protocol_arg states_say icmp_test syn_only flags_say in_ports SpecPorts.in_range].
Lemma head_accepts cmds chain p r rs : rules_in chain cmds = r :: rs -> r_target r = Some "ACCEPT" -> meets r p -> chain_gives 1 cmds chain p "ACCEPT".
Proof.
  intros E T M. cbn [chain_gives]. rewrite E. exists [], r, rs. split; [reflexivity|]. split; [split; [exact M|]; exists "ACCEPT"; split; [exact T|]; left; split; [left; reflexivity|reflexivity]|intros y a []].
Qed.
Ltac over := eexists; eexists; split; [vm_compute; reflexivity|]; split; [read_lines; reflexivity|];
  split; [eapply head_accepts; [read_lines; reflexivity|reflexivity|unfold meets; cbn [r_conditions]; repeat (apply Forall_cons || apply Forall_nil)]|].
Lemma fresh_state p s : ~ p_option p "established" -> In "NEW" (split_char "," s) -> states_say s p.
Proof. intros N I. exists "NEW". split; [exact I|]. left. auto. Qed.
Ltac unseen := apply fresh_state; [intros [X|[]]; discriminate X|cbn; auto].
(** A term whose source is excluded in full: the exclusion is dropped. *)
Theorem C31_full_exclusion_refuted : exists t p, ipt_traffic ipt4 p /\ overaccepts ipt4 t p.
Proof.
  exists (set_source_address [v4 10 1 0 0 16] (set_source_address_exclude [v4 10 0 0 0 8] (accept "t"))), (ipkt V4 (ten 1 0 1) 5 "tcp" 3000 80 (fun _ => False) "" 0).
  split; [seen|]. over; [exact I| |unseen|].
  - exists 167837696, 16. vm_compute. intuition congruence.
  - intros ((_ & (_ & N) & _) & _). apply N. eexists. split; [left; reflexivity|]. split; [reflexivity|vm_compute; split; [discriminate|reflexivity]].
Qed.
Print Assumptions C31_full_exclusion_refuted.
(** A condition on ICMP code 0 is dropped. *)
Theorem C31_icmp_code_zero_refuted : exists t p, ipt_traffic ipt4 p /\ overaccepts ipt4 t p.
Proof.
  exists (set_protocol ["icmp"] (set_icmp_type ["unreachable"] (set_icmp_code [0] (accept "t")))), (ipkt V4 1 5 "icmp" 0 0 (fun _ => False) "unreachable" 3).
  split; [seen|]. over; [reflexivity| |unseen|].
  - split; [|exact I]. vm_compute. auto 30.
  - intros (_ & _ & _ & _ & _ & _ & (_ & [X|(n & [<-|[]] & X)]) & _); discriminate X.
Qed.
Print Assumptions C31_icmp_code_zero_refuted.
(** The option none becomes a test of no flag at all. *)
Theorem C31_option_none_refuted : exists t p, ipt_traffic ipt4 p /\ overaccepts ipt4 t p.
Proof.
  exists (set_protocol ["tcp"] (set_option ["none"] (accept "t"))), (ipkt V4 1 5 "tcp" 3000 80 (fun _ => False) "" 0).
  split; [seen|]. over; [reflexivity| |unseen|].
  - intros f I. cbn. tauto.
  - intros (_ & _ & _ & _ & (_ & O & _) & _). specialize (O "none" (or_introl eq_refl)). destruct O as [O|[]]; discriminate O.
Qed.
Print Assumptions C31_option_none_refuted.
(** A term that names a protocol of the other family beside others gives no rule. *)
Theorem C31_mixed_families_refuted : exists t p, ipt_traffic ipt6 p /\ term_matches t p /\ t_action t = ["accept"] /\ ipt_term ipt6 t = Ok [].
Proof.
  exists (set_protocol ["icmp"; "icmpv6"] (accept "t")), (ipkt V6 1 5 "icmpv6" 0 0 (fun _ => False) "echo-request" 0).
  split; [seen|]. split; [|split; [reflexivity|vm_compute; reflexivity]].
  assert (Z : forall x, ~ covered [] x) by (intros x (n & [] & _)).
  repeat split; try (left; reflexivity); try (intros ? []; fail); try apply Z; try (left; split; reflexivity); try (right; exists "icmpv6"; split; [right; left; reflexivity|reflexivity]).
  left. left. reflexivity.
Qed.
Print Assumptions C31_mixed_families_refuted.
(** A list of types for ICMPv6 beside another condition: from the second rule on, the options
    repeat those of the rules before, so the table is refused. *)
Theorem C31_icmpv6_types_refuted : exists t lines, ipt_term ipt6 t = Ok lines /\ read_table V6 (join nl_text lines) = None.
Proof.
  exists (set_protocol ["icmpv6"] (set_icmp_type ["echo-request"; "echo-reply"] (set_packet_length (Some "100") (accept "t")))). eexists.
  split; [vm_compute; reflexivity|]. vm_compute. reflexivity.
Qed.
Print Assumptions C31_icmpv6_types_refuted.
(** So is one whose comment ends in a backslash. *)
Theorem C31_comment_backslash_refuted : exists t lines, ipt_term ipt4 t = Ok lines /\ read_table V4 (join nl_text lines) = None.
Proof.
  exists (set_comment ["see C:\"] (accept "t")). eexists. split; [vm_compute; reflexivity|]. vm_compute. reflexivity.
Qed.
Print Assumptions C31_comment_backslash_refuted.

(** ** C32: port batches *)

(** The conditions for a list of ports read, one after the other, as parts of the list, no
    multiport match having more than fifteen places; together they are the list. *)
Theorem C32_batches_exact : forall letter ports, letter = "s" \/ letter = "d" -> (forall r, In r ports -> port_ok r) ->
  exists chunks, Forall2 (batch_reads letter) (port_statements letter ports) chunks /\ concat chunks = ports.
Proof. exact port_batches. Qed.
Print Assumptions C32_batches_exact.
(** A port matches one of the conditions exactly when it is in the list. *)
Theorem C32_batches_match : forall letter ports, letter = "s" \/ letter = "d" -> (forall r, In r ports -> port_ok r) ->
  exists chunks, Forall2 (batch_reads letter) (port_statements letter ports) chunks /\
    forall n, (exists ch, In ch chunks /\ in_ports ch n) <-> in_ports ports n.
Proof.
  intros letter ports S P. destruct (port_batches letter ports S P) as (chunks & R & <-). exists chunks. split; [exact R|]. intros n. unfold in_ports. split.
  - intros (ch & I & r & J & X). exists r. split; [apply in_concat; exists ch; auto|exact X].
  - intros (r & I & X). apply in_concat in I. destruct I as (ch & J & I). exists ch. split; [exact J|]. exists r. auto.
Qed.
Print Assumptions C32_batches_match.
Definition many : list prange := [(1, 1); (3, 4); (6, 7); (9, 10); (12, 13); (15, 16); (18, 18); (20, 21); (23, 24); (80, 80)].
Example C32_example : (forall r, In r many -> port_ok r) /\
  port_statements "d" many = ["-m multiport --dports 1,3:4,6:7,9:10,12:13,15:16,18,20:21"; "-m multiport --dports 23:24,80"] /\
  slots "1,3:4,6:7,9:10,12:13,15:16,18,20:21" = 14%nat.
Proof.
  split; [|vm_compute; auto]. intros r I. repeat (destruct I as [<-|I]; [unfold port_ok; cbn; lia|]). destruct I.
Qed.

(** ** C40: expired terms *)

Theorem C40_iptables_expired_not_rendered : forall speedway today fs lines, ipt_policy speedway today fs = Ok lines ->
  ipt_policy speedway today (map (fun f => (fst f, filter (valid_on today) (snd f))) fs) = Ok lines.
Proof.
  intros speedway today fs lines H. rewrite <- (ipt_policy_expired speedway today fs lines H). f_equal. apply map_ext.
  intros f. rewrite filter_valid. reflexivity.
Qed.
Print Assumptions C40_iptables_expired_not_rendered.
Example C40_iptables_example : expired 100 iold = true /\ expired 99 iold = false /\
  ipt_policy false 100 [(extra, [iold])] = Ok ["# Iptables extra Policy"; "# $Id:$"; "# $Date:$"; "# $Revision:$"; "# inet"; "-N extra"; ""] /\
  ipt_policy false 99 [(extra, [iold])] = Ok ["# Iptables extra Policy"; "# $Id:$"; "# $Date:$"; "# $Revision:$"; "# inet"; "-N extra"; "-N e_old"; "-A extra -j e_old"; "-A e_old -p all -j DROP"; ""].
Proof. vm_compute. auto. Qed.

(** ** C60: default actions *)

(** A built-in chain whose header names a default action has that action. *)
Theorem C60_named_default_partial : forall speedway today v fs lines cmds before h terms a,
  ipt_policy speedway today fs = Ok lines -> ipt_policy_ok speedway today v fs -> read_table v (join nl_text lines) = Some cmds ->
  filter_at fs before h terms -> In (ih_name h) builtin_chains -> named_default (ih_options h) = Some a ->
  default_of (ih_name h) cmds = Some a.
Proof. exact policy_default. Qed.
Print Assumptions C60_named_default_partial.
Example C60_example : ipt_policy_ok false 100 V4 two /\ filter_at two [] input [iold; iweb] /\ In (ih_name input) builtin_chains /\
  named_default (ih_options input) = Some "DROP".
Proof. split; [exact (proj1 C31_example)|]. split; [exists [], [(extra, [ireply; ideny])]; split; reflexivity|]. split; [left; reflexivity|reflexivity]. Qed.
(** A header that names none takes that of the header before it. *)
Definition quiet_output : list (ipt_header * list term) := [(mkIptHeader "INPUT" ["DROP"] [], [ideny]); (mkIptHeader "OUTPUT" [] [], [accept "out"])].
Theorem C60_default_leaks_refuted : exists fs lines cmds, ipt_policy false 100 fs = Ok lines /\ read_table V4 (join nl_text lines) = Some cmds /\
  named_default (ih_options (mkIptHeader "OUTPUT" [] [])) = None /\ In (mkIptHeader "OUTPUT" [] [], [accept "out"]) fs /\ default_of "OUTPUT" cmds = Some "DROP" /\
  exists lines' cmds', ipt_policy false 100 (tl fs) = Ok lines' /\ read_table V4 (join nl_text lines') = Some cmds' /\ default_of "OUTPUT" cmds' = None.
Proof.
  exists quiet_output. eexists. eexists. split; [vm_compute; reflexivity|]. split; [read_lines; reflexivity|]. split; [reflexivity|]. split; [right; left; reflexivity|]. split; [reflexivity|].
  eexists. eexists. split; [vm_compute; reflexivity|]. split; [read_lines; reflexivity|]. reflexivity.
Qed.
Print Assumptions C60_default_leaks_refuted.
(** The option nostate of one header also holds for those after it: there, replies are no
    longer recognised by connection tracking. *)
Theorem C60_nostate_leaks_refuted : exists h terms, str_in "nostate" (ih_options h) = false /\
  (exists lines, ipt_policy false 100 [(h, terms)] = Ok lines /\ In "-A O_out -p udp -m state --state ESTABLISHED,RELATED -j ACCEPT" lines) /\
  exists lines, ipt_policy false 100 [(mkIptHeader "INPUT" ["nostate"] [], [ideny]); (h, terms)] = Ok lines /\ In "-A O_out -p udp --dport 1024:65535 -j ACCEPT" lines.
Proof.
  exists (mkIptHeader "OUTPUT" [] []), [set_protocol ["udp"] (set_option ["established"] (accept "out"))]. split; [reflexivity|].
  split; eexists; (split; [vm_compute; reflexivity|]); apply str_in_spec; vm_compute; reflexivity.
Qed.
Print Assumptions C60_nostate_leaks_refuted.

(** ** C61: tables load *)

(** A policy whose filters start with different letters gives a table that can be loaded:
    every chain is made once, and before it is used. *)
Theorem C61_tables_load_partial : forall speedway today v fs lines cmds,
  ipt_policy speedway today fs = Ok lines -> ipt_policy_ok speedway today v fs -> read_table v (join nl_text lines) = Some cmds ->
  (forall h ts, In (h, ts) fs -> filter_name_ok (ih_name h)) -> NoDup (map (fun f => String.get 0 (ih_name (fst f))) fs) ->
  loads builtin_chains cmds.
Proof. exact policy_loads. Qed.
Print Assumptions C61_tables_load_partial.
Example C61_example : ipt_policy_ok false 100 V4 two /\ (forall h ts, In (h, ts) two -> filter_name_ok (ih_name h)) /\
  NoDup (map (fun f => String.get 0 (ih_name (fst f))) two).
Proof.
  split; [exact (proj1 C31_example)|]. split.
  - intros h ts [E|[E|[]]]; injection E as <- <-; (split; [cbn; intuition discriminate|discriminate]).
  - cbn. constructor; [intros [X|[]]; discriminate X|]. constructor; [intros []|constructor].
Qed.
(** The chain of a term is named by the first letter of the filter and the name of the term,
    so two filters with the same first letter can claim the same chain. *)
Theorem C61_same_chain_refuted : exists fs lines cmds, ipt_policy false 100 fs = Ok lines /\
  NoDup (map (fun f => ih_name (fst f)) fs) /\ read_table V4 (join nl_text lines) = Some cmds /\ ~ loads builtin_chains cmds.
Proof.
  exists [(mkIptHeader "INPUT" [] [], [ideny]); (mkIptHeader "INTERNAL" [] [], [ideny])]. eexists. eexists. split; [vm_compute; reflexivity|].
  split; [repeat constructor; cbn; intuition discriminate|]. split; [read_lines; reflexivity|]. cbn [loads r_target].
  intros X. destruct X as (_ & _ & _ & _ & _ & _ & X & _). apply X. cbn. auto 20.
Qed.
Print Assumptions C61_same_chain_refuted.
