(** Theorems C78: SONiC access lists (sonic.py). *)
From Coq Require Import Lia Permutation.
From Verif Require Import SpecSonic Samples BaseFacts PyStrFacts TextProofs CiscoProofs GceProofs QuietTerm SonicProofs SonicPolicy.
From Verif Require Import PropsPolicy.
Local Open Scope string_scope.
Local Open Scope list_scope.
Local Open Scope Z_scope.

(** ** C78: the table of rules decides as the policy says *)

(** The rules stand under ACL_RULE in the order of the terms, with the keys RULE_10, RULE_20, ...
    of the table the header names, and with priorities 65526, 65516, ... that never get below 0:
    no two rules have the same key or the same priority. *)
Theorem C78_rules_numbered : forall order today options terms j name rest v,
  Permutation order [V4; V6] -> sn_policy order today [(options, terms)] = Ok j -> options = name :: rest -> wants v options ->
  exists d, path ["ACL_RULE"] j = Some (JDict d) /\ forall i e, nth_error d i = Some e ->
    fst e = append name (append "|RULE_" (dec (10 + 10 * Z.of_nat i))) /\ priority_of (snd e) (65526 - 10 * Z.of_nat i) /\ 0 <= 65526 - 10 * Z.of_nat i.
Proof. exact sn_rules_numbered. Qed.
Print Assumptions C78_rules_numbered.

(** The table gives a packet of a family that the header asks for the outcome of the first term
    in force that matches, and none if there is no such term; whatever the order in which the
    set of families is walked.  Missing for the full claim: policies with several headers for
    SONiC, and the terms of the refutations below. *)
Theorem C78_table_decides_as_policy_partial : forall order today options terms j name rest v p o,
  Permutation order [V4; V6] -> sn_policy order today [(options, terms)] = Ok j -> options = name :: rest -> wants v options ->
  (forall t, In t terms -> in_force today t -> any_or (t_platform t) (eq "sonic") -> sn_term_ok t) -> sn_traffic v p ->
  (sn_table_decides name j p o <-> sn_policy_decides today terms p o).
Proof. exact sn_decides. Qed.
Print Assumptions C78_table_decides_as_policy_partial.

(** *** A policy that meets the hypotheses *)
Definition snweb : term := Eval vm_compute in set_protocol ["tcp"] (set_destination_port [(80, 80); (443, 443)] (set_source_port [(1024, 65535)]
  (set_source_address [v4 10 0 0 0 8; v6 db8 32] (set_destination_address [v4 192 0 2 0 24] (accept "web"))))).
Definition snback : term := Eval vm_compute in set_protocol ["tcp"] (set_option ["tcp-established"] (accept "back")).
Definition snold : term := Eval vm_compute in set_expiration (Some 100) (set_action ["deny"] (blank "old")).
Definition snother : term := Eval vm_compute in set_platform ["juniper"] (set_action ["deny"] (set_source_port [(0, 0)] (blank "other"))).
Definition snecho : term := Eval vm_compute in set_protocol ["icmpv6"] (set_icmp_type ["echo-request"; "echo-reply"] (set_source_address [v6 db8 32] (accept "echo"))).
Definition snrest : term := Eval vm_compute in set_action ["deny"] (blank "rest").
Definition sn_terms1 : list term := [snold; snother; snweb; snback; snecho; snrest].
Definition spkt (v : ver) (src dst : Z) (proto : string) (sport dport : Z) (type : string) (option : string -> Prop) : packet :=
  mkPacket (v, src) (v, dst) proto sport dport type 0 option
    (fun _ => False) (fun _ => False) (fun _ => False) (fun _ => False)
    "0" "" 0 64 100 64 "" "" "" "" "" "" "" (match v with V4 => "inet" | V6 => "inet6" end) "sonic".
Ltac sn_rest := match goal with
  | |- valid_list _ /\ valid_list _ => split; [valid_tac|valid_tac]
  | |- uniform _ /\ uniform _ => split; left; intros r H; cbn in H; repeat (destruct H as [<-|H]; [reflexivity|]); destruct H
  | |- ~ In "all" _ => intros H; cbn in H; repeat (destruct H as [H|H]; [discriminate H|]); destruct H
  | |- _ \/ _ => first [left; reflexivity|right; reflexivity]
  | |- ~ In "sonic" _ => intros []
  | |- _ /\ _ /\ _ /\ t_ttl _ <> _ => split; [reflexivity|split; [reflexivity|split; [reflexivity|discriminate]]]
  | |- t_source_interface _ <> _ /\ _ => split; discriminate end.
Lemma snweb_ok : sn_term_ok snweb.
Proof.
  constructor; [split; valid_tac| | |sn_rest|sn_rest|sn_rest|sn_rest|sn_rest].
  - intros r H. cbn in H. destruct H as [<-|[<-|[<-|[]]]]; cbn; lia.
  - split; [right; intros r [<-|[]] X; discriminate X|left; intros r [<-|[<-|[]]]; reflexivity].
Qed.
Lemma sn_plain_ok t : In t [snback; snecho; snrest] -> sn_term_ok t.
Proof. intros [<-|[<-|[<-|[]]]]; (constructor; [split; valid_tac|intros r []|sn_rest|sn_rest|sn_rest|sn_rest|sn_rest|sn_rest]). Qed.
(** All terms for SONiC of the example are within the hypotheses: a web request is forwarded, and
    so is an echo request, which only the IPv6 rules mention; a query by udp is dropped. *)
Example C78_example : exists j, sn_policy [V6; V4] 200 [(["EDGE"; "mixed"], sn_terms1)] = Ok j /\
  sn_table_decides "EDGE" j (spkt V4 (10 * 2 ^ 24 + 1) (192 * 2 ^ 24 + 513) "tcp" 5000 443 "" (fun _ => False)) "FORWARD" /\
  sn_table_decides "EDGE" j (spkt V6 (db8 * 2 ^ 96) 7 "icmpv6" 0 0 "echo-request" (fun _ => False)) "FORWARD" /\
  sn_table_decides "EDGE" j (spkt V6 (db8 * 2 ^ 96) 7 "udp" 5000 53 "" (fun _ => False)) "DROP".
Proof.
  destruct (sn_policy [V6; V4] 200 [(["EDGE"; "mixed"], sn_terms1)]) as [j|] eqn:E; [|vm_compute in E; discriminate E]. exists j. split; [reflexivity|].
  assert (K : forall t, In t sn_terms1 -> in_force 200 t -> any_or (t_platform t) (eq "sonic") -> sn_term_ok t).
  { intros t [<-|[<-|[<-|H]]] Fo Pl.
    - specialize (Fo 100 eq_refl). lia.
    - destruct Pl as [Pl|(q & [<-|[]] & Pl)]; discriminate Pl.
    - exact snweb_ok.
    - apply sn_plain_ok. exact H. }
  assert (D : forall v p o, wants v ["EDGE"; "mixed"] -> sn_traffic v p -> sn_policy_decides 200 sn_terms1 p o -> sn_table_decides "EDGE" j p o).
  { intros v p o W T H. apply (C78_table_decides_as_policy_partial [V6; V4] 200 ["EDGE"; "mixed"] sn_terms1 j "EDGE" ["mixed"] v p o); try assumption; [apply perm_swap|reflexivity]. }
  assert (W : forall v, wants v ["EDGE"; "mixed"]) by (intros v; left; right; left; reflexivity).
  assert (Q : forall t, In t [snweb; snback; snecho; snrest] -> quiet "sonic" t).
  { intros t [<-|[<-|[<-|[<-|[]]]]]; (constructor; repeat split; try reflexivity; try (left; reflexivity); intros []). }
  split; [|split].
  - apply (D V4); [apply W|constructor; [split; [reflexivity|cbn; lia]|split; [reflexivity|cbn; lia]|discriminate|cbn; tauto|reflexivity]|].
    exists [snold; snother], snweb, [snback; snecho; snrest]. split; [reflexivity|]. split.
    + split; [intros d X; discriminate X|]. split; [|exists "accept", []; split; [reflexivity|left; auto]].
      apply (quiet_matches "sonic" snweb); [apply Q; left; reflexivity|reflexivity|].
      split; [split; [right; eexists; split; [left; reflexivity|]; vm_compute; intuition congruence|intros (n & [] & _)]|].
      split; [split; [right; eexists; split; [left; reflexivity|]; vm_compute; intuition congruence|intros (n & [] & _)]|].
      split; [right; exists "tcp"; split; [left; reflexivity|reflexivity]|]. split; [right; exists (1024, 65535); split; [left; reflexivity|vm_compute; intuition congruence]|].
      split; [right; exists (443, 443); split; [right; left; reflexivity|vm_compute; intuition congruence]|]. split; [intros o []|left; reflexivity].
    + intros y a [<-|[<-|[]]] (Fo & M & _); [specialize (Fo 100 eq_refl); lia|].
      destruct M as (_ & _ & _ & _ & _ & _ & _ & ([X|(q & [<-|[]] & X)] & _) & _); discriminate X.
  - apply (D V6); [apply W|constructor; [split; [reflexivity|vm_compute; intuition congruence]|split; [reflexivity|cbn; lia]|discriminate|intros X; discriminate X|reflexivity]|].
    exists [snold; snother; snweb; snback], snecho, [snrest]. split; [reflexivity|]. split.
    + split; [intros d X; discriminate X|]. split; [|exists "accept", []; split; [reflexivity|left; auto]].
      apply (quiet_matches "sonic" snecho); [apply Q; right; right; left; reflexivity|reflexivity|].
      split; [split; [right; eexists; split; [left; reflexivity|]; vm_compute; intuition congruence|intros (n & [] & _)]|].
      split; [split; [left; reflexivity|intros (n & [] & _)]|].
      split; [right; exists "icmpv6"; split; [left; reflexivity|reflexivity]|]. split; [left; reflexivity|]. split; [left; reflexivity|]. split; [intros o []|].
      right. exists "echo-request". split; [left; reflexivity|reflexivity].
    + intros y a [<-|[<-|[<-|[<-|[]]]]] (Fo & M & _); [specialize (Fo 100 eq_refl); lia| | |].
      * destruct M as (_ & _ & _ & _ & _ & _ & _ & ([X|(q & [<-|[]] & X)] & _) & _); discriminate X.
      * destruct M as (_ & ([X|(q & [<-|[]] & X)] & _) & _); discriminate X.
      * destruct M as (_ & ([X|(q & [<-|[]] & X)] & _) & _); discriminate X.
  - apply (D V6); [apply W|constructor; [split; [reflexivity|vm_compute; intuition congruence]|split; [reflexivity|cbn; lia]|discriminate|intros X; discriminate X|reflexivity]|].
    exists [snold; snother; snweb; snback; snecho], snrest, []. split; [reflexivity|]. split.
    + split; [intros d X; discriminate X|]. split; [|exists "deny", []; split; [reflexivity|right; auto]].
      apply (quiet_matches "sonic" snrest); [apply Q; right; right; right; left; reflexivity|reflexivity|].
      split; [split; [left; reflexivity|intros (n & [] & _)]|]. split; [split; [left; reflexivity|intros (n & [] & _)]|].
      split; [left; reflexivity|]. split; [left; reflexivity|]. split; [left; reflexivity|]. split; [intros o []|left; reflexivity].
    + intros y a [<-|[<-|[<-|[<-|[<-|[]]]]]] (Fo & M & _); [specialize (Fo 100 eq_refl); lia| | | |].
      * destruct M as (_ & _ & _ & _ & _ & _ & _ & ([X|(q & [<-|[]] & X)] & _) & _); discriminate X.
      * destruct M as (_ & ([X|(q & [<-|[]] & X)] & _) & _); discriminate X.
      * destruct M as (_ & ([X|(q & [<-|[]] & X)] & _) & _); discriminate X.
      * destruct M as (_ & ([X|(q & [<-|[]] & X)] & _) & _); discriminate X.
Qed.

(** *** Policies for which the table decides differently *)

(** A table that forwards a packet although the only term of the policy does not match. *)
Definition sn_lets_through (t : term) (p : packet) : Prop :=
  exists j, sn_policy [V4; V6] 0 [(["EDGE"; "inet"], [t])] = Ok j /\ sn_traffic V4 p /\ sn_table_decides "EDGE" j p "FORWARD" /\ ~ term_matches t p.
Ltac sn_made := eexists; split; [vm_compute; reflexivity|split;
  [constructor; [split; [reflexivity|cbn; lia]|split; [reflexivity|cbn; lia]|discriminate|cbn; tauto|reflexivity]|]].
Ltac sn_forward := eexists _, 65526; split; [eexists _, "RULE_10"; split; [reflexivity|left; reflexivity]|
  split; [split; [constructor; cbn; try exact Logic.I|reflexivity]|split; [eexists; split; reflexivity|]]].
Ltac sn_only := let r := fresh in let o := fresh in let n := fresh in let d := fresh in let k := fresh in let P := fresh in let I := fresh in let X := fresh in
  intros r o n (d & k & P & I) [_ X] _ _; cbn in P; injection P as <-; destruct I as [I|[]];
  apply pair_equal_spec in I; destruct I as [_ <-]; cbn in X; injection X as <-; reflexivity.

(** Port 0 is taken for any port. *)
Definition sn_zero : term := Eval vm_compute in set_protocol ["tcp"] (set_source_port [(0, 0)] (accept "zero")).
Theorem C78_port_zero_refuted : exists t p, t_source_port t = [(0, 0)] /\ p_sport p = 5000 /\ sn_lets_through t p.
Proof.
  exists sn_zero, (spkt V4 1 2 "tcp" 5000 80 "" (fun _ => False)). split; [reflexivity|]. split; [reflexivity|]. sn_made. split.
  - sn_forward; [|sn_only]. exists 6. split; [eexists; split; reflexivity|cbn; tauto].
  - intros (_ & _ & (_ & [X|(r & [<-|[]] & X)] & _) & _); [discriminate X|]. vm_compute in X. intuition congruence.
Qed.
Print Assumptions C78_port_zero_refuted.

(** Established connections without a protocol: every packet. *)
Definition sn_replies : term := Eval vm_compute in set_option ["tcp-established"] (accept "replies").
Theorem C78_established_alone_refuted : exists t p, t_option t = ["tcp-established"] /\ ~ p_option p "tcp-established" /\ sn_lets_through t p.
Proof.
  exists sn_replies, (spkt V4 1 2 "tcp" 5000 80 "" (fun _ => False)). split; [reflexivity|]. split; [intros []|]. sn_made. split.
  - sn_forward; sn_only.
  - intros (_ & _ & _ & _ & (_ & X & _) & _). exact (X "tcp-established" (or_introl eq_refl)).
Qed.
Print Assumptions C78_established_alone_refuted.

(** A term that leaves out SONiC by platform-exclude is rendered all the same. *)
Definition sn_left_out : term := Eval vm_compute in set_platform_exclude ["sonic"] (accept "out").
Theorem C78_platform_exclude_refuted : exists t p, t_platform_exclude t = ["sonic"] /\ sn_lets_through t p.
Proof.
  exists sn_left_out, (spkt V4 1 2 "tcp" 5000 80 "" (fun _ => False)). split; [reflexivity|]. sn_made. split.
  - sn_forward; sn_only.
  - intros (_ & _ & _ & _ & _ & _ & _ & (_ & X & _) & _). exact (X "sonic" (or_introl eq_refl) eq_refl).
Qed.
Print Assumptions C78_platform_exclude_refuted.

(** Single ports and ranges in one list: the rule for the range keeps the single port, so that no
    rule accepts what the term accepts. *)
Definition sn_kinds : term := Eval vm_compute in set_protocol ["tcp"] (set_destination_port [(80, 80); (443, 444)] (accept "kinds")).
Theorem C78_mixed_ports_refuted : exists t p j, sn_policy [V4; V6] 0 [(["EDGE"; "inet"], [t])] = Ok j /\ sn_traffic V4 p /\
  sn_policy_decides 0 [t] p "FORWARD" /\ forall o, ~ sn_table_decides "EDGE" j p o.
Proof.
  exists sn_kinds, (spkt V4 1 2 "tcp" 5000 443 "" (fun _ => False)). sn_made. split.
  - exists [], sn_kinds, []. split; [reflexivity|]. split; [|intros y a []]. split; [intros d X; discriminate X|]. split; [|exists "accept", []; split; [reflexivity|left; auto]].
    apply (quiet_matches "sonic" sn_kinds); [constructor; repeat split; try reflexivity; try (left; reflexivity); intros []|reflexivity|].
    split; [split; [left; reflexivity|intros (n & [] & _)]|]. split; [split; [left; reflexivity|intros (n & [] & _)]|].
    split; [right; exists "tcp"; split; [left; reflexivity|reflexivity]|]. split; [left; reflexivity|].
    split; [right; exists (443, 444); split; [right; left; reflexivity|vm_compute; intuition congruence]|]. split; [intros o []|left; reflexivity].
  - intros o (r & n & (d & k & P & I) & [M _] & _). cbn in P. injection P as <-. pose proof (sm_dport _ _ M) as X.
    destruct I as [I|[I|[]]]; apply pair_equal_spec in I; destruct I as [_ <-]; destruct X as (s & X & Y); injection X as <-; vm_compute in Y; discriminate Y.
Qed.
Print Assumptions C78_mixed_ports_refuted.

(** A second header for SONiC: the rules of the first are lost, as they stand one level too deep. *)
Theorem C78_second_header_refuted : exists t p j, sn_policy [V4; V6] 0 [(["EDGE"; "inet"], [t]); (["CORE"; "inet"], [t])] = Ok j /\ sn_term_ok t /\ sn_traffic V4 p /\
  sn_policy_decides 0 [t] p "DROP" /\ forall o, ~ sn_table_decides "EDGE" j p o.
Proof.
  exists snrest, (spkt V4 1 2 "tcp" 5000 443 "" (fun _ => False)). eexists. split; [vm_compute; reflexivity|]. split; [apply sn_plain_ok; right; right; left; reflexivity|].
  split; [constructor; [split; [reflexivity|cbn; lia]|split; [reflexivity|cbn; lia]|discriminate|cbn; tauto|reflexivity]|]. split.
  - exists [], snrest, []. split; [reflexivity|]. split; [|intros y a []]. split; [intros d X; discriminate X|]. split; [|exists "deny", []; split; [reflexivity|right; auto]].
    apply (quiet_matches "sonic" snrest); [constructor; repeat split; try reflexivity; try (left; reflexivity); intros []|reflexivity|].
    split; [split; [left; reflexivity|intros (n & [] & _)]|]. split; [split; [left; reflexivity|intros (n & [] & _)]|].
    split; [left; reflexivity|]. split; [left; reflexivity|]. split; [left; reflexivity|]. split; [intros o []|left; reflexivity].
  - intros o (r & n & (d & k & P & I) & _). cbn in P. injection P as <-. destruct I as [I|[I|[]]]; apply pair_equal_spec in I; destruct I as [I _]; discriminate I.
Qed.
Print Assumptions C78_second_header_refuted.

(** Of the protocols that the policy language knows, ipip is not rendered but fails. *)
Definition sn_ipip : term := Eval vm_compute in set_protocol ["ipip"] (accept "tunnels").
Theorem C78_ipip_refuted : exists t, sn_term_ok t /\ t_protocol t = ["ipip"] /\ In ("ipip", 4) proto_map /\
  sn_policy [V4; V6] 0 [(["EDGE"; "inet"], [t])] = Raise (Exn "KeyError").
Proof.
  exists sn_ipip. split; [constructor; [split; valid_tac|intros r []|sn_rest|sn_rest|sn_rest|sn_rest|sn_rest|sn_rest]|]. split; [reflexivity|]. split; [cbn; tauto|].
  vm_compute. reflexivity.
Qed.
Print Assumptions C78_ipip_refuted.
