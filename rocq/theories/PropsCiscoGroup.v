(** Theorems about Cisco configurations with object groups. *)
From Coq Require Import List String Ascii ZArith Lia.
From Verif Require Import SpecCiscoGroup CiscoDup SpecCiscoRules CiscoGroupRead CiscoGroupTerm CiscoGroupAcl CiscoGroupDup Samples PropsPolicy PyStrFacts BaseFacts.
Import ListNotations.
Local Open Scope string_scope.
Local Open Scope list_scope.
Local Open Scope Z_scope.

(** C30: removing duplicate groups leaves every reference with the members it had. Partial:
    each name is defined once in its family, and IPv4 lists begin with 'ip access-list
    extended' or 'ipv4 access-list'; without these the claim is false, as shown below. *)
Theorem C30_references_keep_members_partial : forall text items,
  plain_lines text -> known_heads text -> config_of text = Some items -> names_once items ->
  exists items', config_of (remove_duplicate_objects text) = Some items' /\
    same_config items items' /\ names_once items' /\ no_duplicates items'.
Proof. exact removal_same. Qed.
Print Assumptions C30_references_keep_members_partial.

(** A configuration with three groups, two of them alike. *)
Definition sample_groups : string := join lf
  ["object-group network ipv4 WEB"; " 10.0.0.0/8"; "exit"; "";
   "object-group network ipv4 MAIL"; " 10.1.0.0/16"; " 10.2.0.0/16"; "exit"; "";
   "object-group network ipv4 ALSO_WEB"; " 10.0.0.0/8"; "exit"; "";
   "object-group network ipv6 WEB6"; " 2001:db8::/32"; "exit"; "";
   "object-group port 80-80"; " eq 80"; "exit"; "";
   "! comment"; "no ip access-list extended edge"; "ip access-list extended edge";
   " permit tcp any net-group ALSO_WEB port-group 80-80"; " permit tcp net-group WEB net-group MAIL"; ""; "exit"; "";
   "no ipv6 access-list edge6"; "ipv6 access-list edge6"; " permit tcp any net-group WEB6"; ""; "exit"; ""].
Definition sample_items : list citem :=
  [CGroup "ipv4" "WEB" [" 10.0.0.0/8"]; CGroup "ipv4" "MAIL" [" 10.1.0.0/16"; " 10.2.0.0/16"];
   CGroup "ipv4" "ALSO_WEB" [" 10.0.0.0/8"]; CGroup "ipv6" "WEB6" [" 2001:db8::/32"]; CPorts "80-80" [" eq 80"];
   COther "! comment"; COther "no ip access-list extended edge";
   CAcl "ipv4" "ip access-list extended edge"
     [["permit"; "tcp"; "any"; "net-group"; "ALSO_WEB"; "port-group"; "80-80"]; ["permit"; "tcp"; "net-group"; "WEB"; "net-group"; "MAIL"]];
   COther "no ipv6 access-list edge6"; CAcl "ipv6" "ipv6 access-list edge6" [["permit"; "tcp"; "any"; "net-group"; "WEB6"]]].
Example C30_example : plain_lines sample_groups /\ known_heads sample_groups /\ config_of sample_groups = Some sample_items /\
  names_once sample_items /\ ~ no_duplicates sample_items /\
  config_of (remove_duplicate_objects sample_groups) = Some
    [CGroup "ipv4" "WEB" [" 10.0.0.0/8"]; CGroup "ipv4" "MAIL" [" 10.1.0.0/16"; " 10.2.0.0/16"];
     CGroup "ipv6" "WEB6" [" 2001:db8::/32"]; CPorts "80-80" [" eq 80"];
     COther "! comment"; COther "no ip access-list extended edge";
     CAcl "ipv4" "ip access-list extended edge"
       [["permit"; "tcp"; "any"; "net-group"; "WEB"; "port-group"; "80-80"]; ["permit"; "tcp"; "net-group"; "WEB"; "net-group"; "MAIL"]];
     COther "no ipv6 access-list edge6"; CAcl "ipv6" "ipv6 access-list edge6" [["permit"; "tcp"; "any"; "net-group"; "WEB6"]]].
Proof.
  split; [vm_compute; reflexivity|]. split.
  { assert (F : forallb (fun line => negb (starts_with "ip access-list " line) || starts_with "ip access-list extended " line)
              (split_char newline sample_groups) = true) by (vm_compute; reflexivity).
    intros line I S. rewrite forallb_forall in F. specialize (F line I). rewrite S in F. exact F. }
  split; [vm_compute; reflexivity|]. split.
  { intros fam [<-|[<-|[]]]; (split; [|reflexivity]); vm_compute; repeat constructor; cbn [In]; intuition discriminate. }
  split; [|vm_compute; reflexivity].
  intros N. specialize (N "ipv4" "WEB" "ALSO_WEB" [" 10.0.0.0/8"]). discriminate N; vm_compute; tauto.
Qed.

(** A name defined twice in a family, with the same members both times, as for two filters of
    one policy that use the same network: all its definitions are removed, and the references
    to it refer to nothing. *)
Theorem C30_defined_twice_refuted : exists text items items',
  plain_lines text /\ known_heads text /\ config_of text = Some items /\
  config_of (remove_duplicate_objects text) = Some items' /\
  members items "ipv4" "WEB" = Some [" 10.0.0.0/8"] /\
  (exists head rules, In ("ipv4", head, rules) (acls_of items') /\ In ["permit"; "ip"; "net-group"; "WEB"; "any"] rules) /\
  members items' "ipv4" "WEB" = None.
Proof.
  exists (join lf ["object-group network ipv4 WEB"; " 10.0.0.0/8"; "exit"; ""; "object-group network ipv4 WEB"; " 10.0.0.0/8"; "exit"; "";
    "ip access-list extended edge"; " permit ip net-group WEB any"; "exit"; ""]).
  eexists. eexists. split; [vm_compute; reflexivity|]. split.
  { match goal with |- known_heads ?T =>
      assert (F : forallb (fun line => negb (starts_with "ip access-list " line) || starts_with "ip access-list extended " line)
              (split_char newline T) = true) by (vm_compute; reflexivity) end.
    intros line I S. rewrite forallb_forall in F. specialize (F line I). rewrite S in F. exact F. }
  split; [vm_compute; reflexivity|]. split; [vm_compute; reflexivity|]. split; [reflexivity|]. split; [|reflexivity].
  exists "ip access-list extended edge". eexists. split; [left; reflexivity|]. left. reflexivity.
Qed.
Print Assumptions C30_defined_twice_refuted.

(** Nexus lists for IPv4 begin with 'ip access-list NAME': duplicate groups are removed, but
    references to them stay. *)
Theorem C30_nexus_refuted : exists text items items',
  plain_lines text /\ config_of text = Some items /\ names_once items /\
  config_of (remove_duplicate_objects text) = Some items' /\
  members items "ipv4" "ALSO_WEB" = Some [" 10.0.0.0/8"] /\
  (exists head rules, In ("ipv4", head, rules) (acls_of items') /\ In ["permit"; "ip"; "net-group"; "ALSO_WEB"; "any"] rules) /\
  members items' "ipv4" "ALSO_WEB" = None.
Proof.
  exists (join lf ["object-group network ipv4 WEB"; " 10.0.0.0/8"; "exit"; ""; "object-group network ipv4 ALSO_WEB"; " 10.0.0.0/8"; "exit"; "";
    "no ip access-list edge"; "ip access-list edge"; " permit ip net-group ALSO_WEB any"; "exit"; ""]).
  eexists. eexists. split; [vm_compute; reflexivity|]. split; [vm_compute; reflexivity|]. split.
  { intros fam [<-|[<-|[]]]; (split; [|reflexivity]); vm_compute; repeat constructor; cbn [In]; intuition discriminate. }
  split; [vm_compute; reflexivity|]. split; [reflexivity|]. split; [|reflexivity].
  exists "ip access-list edge". eexists. split; [left; reflexivity|]. left. reflexivity.
Qed.
Print Assumptions C30_nexus_refuted.

(** ** C64: access lists with object groups decide as the policy does *)

(** For policies of object-group and object-group-inet6 filters without the removal of
    duplicate groups (see C30). Each term has an action that decides, no exclusions, options,
    ICMP types, DSCP values or restriction to a family; the first address of the family has the
    name of the first address of its side; sides with the same name are the same addresses.
    The refutations below show that these cannot be dropped. *)
Theorem C64_group_lists_decide_partial : forall k today hs text,
  group_policy_ok k today hs ->
  (forall h terms, In (h, terms) hs -> ~ In "remove_duplicate_network_objectgroups" (ch_options h)) ->
  cisco_text k today hs = Ok text ->
  exists items, config_of text = Some items /\ Forall2 (list_decides k today items) hs (acls_of items).
Proof. exact group_lists_decide. Qed.
Print Assumptions C64_group_lists_decide_partial.

Definition n4 (name : string) (a b c d len : Z) : net := v4t a b c d len "" name name.
Definition n6 (name : string) (hi len : Z) : net := mkNet V6 (hi * 2 ^ 96) len "" name name.
Definition gweb : term := Eval vm_compute in
  set_protocol ["tcp"; "udp"] (set_destination_port [(80, 80); (8000, 8080)]
    (set_source_address [n4 "OFFICE" 10 0 0 0 8; n4 "LAB" 172 16 0 0 12] (set_destination_address [n4 "WEB" 192 168 0 0 16; n6 "WEB" db8 32] (accept "web")))).
Definition gweb6 : term := Eval vm_compute in
  set_protocol ["tcp"] (set_destination_port [(80, 80)] (set_destination_address [n6 "WEB" db8 32] (accept "web6"))).
Definition gold : term := Eval vm_compute in set_expiration (Some 100) (set_icmp_type ["echo-reply"] (set_protocol ["icmp"] (accept "old"))).
Definition gdeny : term := Eval vm_compute in set_source_address [n4 "OFFICE" 10 0 0 0 8; n4 "LAB" 172 16 0 0 12] (set_action ["deny"] (blank "rest")).
Definition gedge : cheader := mkCHeader ["edge"; "object-group"] ["The edge."].
Definition gedge6 : cheader := mkCHeader ["edge6"; "object-group-inet6"; "noverbose"] [].
Definition gsample : list (cheader * list term) := [(gedge, [gold; gweb; gdeny]); (gedge6, [gweb6])].
Definition gtext : string := join lf
  [""; ""; "object-group network ipv6 WEB"; " 2001:db8::/32"; "exit"; ""; "object-group port 80-80"; " eq 80"; "exit"; "";
   ""; ""; "object-group network ipv4 OFFICE"; " 10.0.0.0/8"; " 172.16.0.0/12"; "exit"; ""; "object-group network ipv4 WEB"; " 192.168.0.0/16"; "exit"; "";
   "object-group port 80-80"; " eq 80"; "exit"; ""; "object-group port 8000-8080"; " range 8000 8080"; "exit"; "";
   "! $Id:$"; "! $Date:$"; "! $Revision:$"; "no ip access-list extended edge"; "ip access-list extended edge"; ""; "";
   " remark web";
   " permit tcp net-group OFFICE net-group WEB port-group 80-80"; " permit udp net-group OFFICE net-group WEB port-group 80-80";
   " permit tcp net-group OFFICE net-group WEB port-group 8000-8080"; " permit udp net-group OFFICE net-group WEB port-group 8000-8080"; ""; "";
   " remark rest"; " deny ip net-group OFFICE any"; ""; "exit"; "";
   "no ipv6 access-list edge6"; "ipv6 access-list edge6"; ""; ""; " permit tcp any net-group WEB port-group 80-80"; ""; "exit"; ""].
Ltac group_side := cbn [t_source_address t_destination_address gweb gweb6 gdeny]; split; [valid_tac|split; [intros _; split; [reflexivity|discriminate]|]; intros n r E; vm_compute in E;
  match type of E with | [] = _ => discriminate E | ?x :: _ = _ => assert (X := f_equal (hd x) E); cbn in X; subst n; reflexivity end].
Ltac no_side := cbn; split; [constructor|split; [congruence|discriminate]].
Example C64_example : group_policy_ok class_ios 100 gsample /\
  (forall h terms, In (h, terms) gsample -> ~ In "remove_duplicate_network_objectgroups" (ch_options h)) /\
  cisco_text class_ios 100 gsample = Ok gtext.
Proof.
  split; [|split; [|vm_compute; reflexivity]].
  - split; [left; reflexivity|]. split.
    + intros h terms [X|[X|[]]]; apply pair_equal_spec in X; destruct X as (<- & <-).
      * exists V4, "edge", []. split; [split; [reflexivity|]; split; [constructor|]; split; [intros x []|]; split; [cbn; intuition discriminate|reflexivity]|].
        intros t [<-|[<-|[<-|[]]]] F; [specialize (F 100 eq_refl); lia| |]; (split; [|discriminate]).
        -- constructor.
           ++ unfold only_cisco_conditions; cbn; repeat split.
           ++ repeat split.
           ++ eexists; eexists; split; [reflexivity|cbn; auto].
           ++ group_side.
           ++ group_side.
           ++ intros q [<-|[<-|[]]]; (split; [apply str_in_spec; reflexivity|split; [discriminate|intros _; discriminate]]).
           ++ intros r [<-|[<-|[]]]; cbn; lia.
           ++ reflexivity.
        -- constructor.
           ++ unfold only_cisco_conditions; cbn; repeat split.
           ++ repeat split.
           ++ eexists; eexists; split; [reflexivity|cbn; auto].
           ++ group_side.
           ++ no_side.
           ++ intros q [].
           ++ intros r [].
           ++ reflexivity.
      * exists V6, "edge6", ["noverbose"]. split; [split; [reflexivity|]; split; [repeat constructor; intros []|]; split; [intros x [<-|[]]; left; reflexivity|]; split; [cbn; intuition discriminate|reflexivity]|].
        intros t [<-|[]] F; (split; [|discriminate]).
        constructor.
        -- unfold only_cisco_conditions; cbn; repeat split.
        -- repeat split.
        -- eexists; eexists; split; [reflexivity|cbn; auto].
        -- no_side.
        -- group_side.
        -- intros q [<-|[]]; (split; [apply str_in_spec; reflexivity|split; [discriminate|intros _; discriminate]]).
        -- intros r [<-|[]]; cbn; lia.
        -- reflexivity.
    + assert (S : forall v l, policy_side 100 gsample v l -> l <> [] ->
        In l (match v with V4 => [t_source_address gweb; t_destination_address gweb] | V6 => [t_destination_address gweb6] end)).
      { intros v l (h & terms & name & flags & t & I & G & It & F & Il) N. destruct I as [X|[X|[]]]; apply pair_equal_spec in X; destruct X as (<- & <-).
        - destruct G as (G & _). destruct v; [|discriminate G]. destruct It as [<-|[<-|[<-|[]]]]; [specialize (F 100 eq_refl); lia| |].
          + destruct Il as [<-|[<-|[]]]; cbn; auto.
          + destruct Il as [<-|[<-|[]]]; [left; reflexivity|destruct (N eq_refl)].
        - destruct G as (G & _). destruct v; [discriminate G|]. destruct It as [<-|[]]. destruct Il as [<-|[<-|[]]]; [destruct (N eq_refl)|left; reflexivity]. }
      intros v l l' x S1 S2 N1 N2 E C. apply (S v l) in S1; [|exact N1]. apply (S v l') in S2; [|exact N2].
      destruct v; cbn [In] in S1, S2.
      * destruct S1 as [<-|[<-|[]]], S2 as [<-|[<-|[]]]; try exact C; discriminate E.
      * destruct S1 as [<-|[]], S2 as [<-|[]]. exact C.
  - intros h terms [X|[X|[]]]; apply pair_equal_spec in X; destruct X as (<- & <-); cbn; intuition discriminate.
Qed.

(** The packets of the refutations, and what they show: the one list of the policy permits a
    packet that no term matches, or the other way round. *)
Definition gpkt (v : ver) (src dst : Z) (proto : string) : packet :=
  mkPacket (v, src) (v, dst) proto 3000 80 "" 0 (fun _ => False) (fun _ => False) (fun _ => False) (fun _ => False)
    (fun _ => False) "" "" 0 0 0 64 "" "" "" "" "" "" "" (match v with V4 => "inet" | V6 => "inet6" end) "cisco".
Definition permits_too_much (k : cisco_class) (hs : list (cheader * list term)) : Prop :=
  exists v text items head rules p, cisco_text k 0 hs = Ok text /\ config_of text = Some items /\
    acls_of items = [(family_name v, head, rules)] /\ group_traffic k v p /\ rules_decide items v rules p "permit" /\
    forall h terms, In (h, terms) hs -> forall t, In t terms -> t_action t = ["accept"] -> in_force 0 t -> ~ term_matches t p.
Definition permits_too_little (k : cisco_class) (hs : list (cheader * list term)) : Prop :=
  exists v text items head rules p, cisco_text k 0 hs = Ok text /\ config_of text = Some items /\
    acls_of items = [(family_name v, head, rules)] /\ group_traffic k v p /\ (forall ws a, In ws rules -> ~ rule_matches items v a ws p) /\
    exists h terms t, In (h, terms) hs /\ In t terms /\ t_action t = ["accept"] /\ in_force 0 t /\ term_matches t p.
Definition quiet (type : string) : cheader := mkCHeader ["edge"; type; "noverbose"] [].
Definition both : term := Eval vm_compute in set_source_address [n4 "A" 10 0 0 0 8; n4 "B" 11 0 0 0 8] (set_protocol ["udp"] (accept "both")).
Definition one : term := Eval vm_compute in set_source_address [n4 "A" 10 0 0 0 8] (set_protocol ["tcp"] (accept "one")).
Lemma too_much k hs v text items head rules p :
  cisco_text k 0 hs = Ok text -> config_of text = Some items -> acls_of items = [(family_name v, head, rules)] -> group_traffic k v p ->
  rules_decide items v rules p "permit" ->
  Forall (fun f => Forall (fun t => t_action t = ["accept"] -> in_force 0 t -> ~ term_matches t p) (snd f)) hs -> permits_too_much k hs.
Proof.
  intros A B C D E F. exists v, text, items, head, rules, p. repeat (split; [assumption|]). intros h terms I t It.
  rewrite Forall_forall in F. specialize (F _ I). cbn [snd] in F. rewrite Forall_forall in F. exact (F t It).
Qed.
Ltac gtraffic := unfold group_traffic, gpkt; cbn -[Z.pow]; repeat match goal with |- _ /\ _ => split end; try reflexivity; vm_compute; congruence.
Ltac first_rule := exists []; eexists; eexists; split; [reflexivity|]; split; [|intros ? ? []].
Ltac in_prefix := eexists; split; [reflexivity|]; eexists; eexists; split; [reflexivity|]; split; [vm_compute; reflexivity|]; split; [vm_compute; reflexivity|]; split; vm_compute; congruence.
Ltac rule_says := split; [reflexivity|]; split; [left; reflexivity|]; cbn -[group_says]; repeat match goal with |- _ /\ _ => split end;
  try exact Logic.I; try reflexivity; try (right; reflexivity); try (left; reflexivity); auto.
(** A side is named by its first network only: of two terms whose sides begin alike, the second
    one uses the group of the first one. *)
Theorem C64_shared_name_refuted : permits_too_much class_ios [(quiet "object-group", [both; one])].
Proof.
  eapply (too_much class_ios _ V4 _ _ _ _ (gpkt V4 (11 * 2 ^ 24 + 1) 5 "tcp")).
  - vm_compute; reflexivity.
  - vm_compute; reflexivity.
  - reflexivity.
  - gtraffic.
  - exists [["permit"; "udp"; "net-group"; "A"; "any"]]. eexists. exists []. split; [reflexivity|]. split.
    + rule_says. eexists. eexists. split; [left; reflexivity|]. split; [right; left; reflexivity|]. in_prefix.
    + intros y a [<-|[]] (_ & _ & M). cbn in M. intuition discriminate.
  - constructor; [|constructor]. constructor; [|constructor; [|constructor]].
    + intros _ _ (_ & (B & _) & _). destruct B as [B|(q & [<-|[]] & B)]; discriminate B.
    + intros _ _ ((_ & ([N|(n & [<-|[]] & _ & N)] & _) & _) & _); [discriminate N|vm_compute in N; intuition congruence].
Qed.
Print Assumptions C64_shared_name_refuted.

(** Exclusions are ignored. *)
Definition gexcl : term := Eval vm_compute in set_source_address [n4 "A" 10 0 0 0 8] (set_source_address_exclude [n4 "B" 10 1 0 0 16] (accept "t")).
Theorem C64_exclusion_refuted : permits_too_much class_ios [(quiet "object-group", [gexcl])].
Proof.
  eapply (too_much class_ios _ V4 _ _ _ _ (gpkt V4 (ten 1 0 1) 5 "tcp")).
  - vm_compute; reflexivity.
  - vm_compute; reflexivity.
  - reflexivity.
  - gtraffic.
  - first_rule. rule_says. eexists. eexists. split; [left; reflexivity|]. split; [left; reflexivity|]. in_prefix.
  - constructor; [|constructor]. constructor; [|constructor].
    intros _ _ ((_ & (_ & N) & _) & _). apply N. eexists. split; [left; reflexivity|]. split; [reflexivity|]. vm_compute. split; congruence.
Qed.
Print Assumptions C64_exclusion_refuted.

(** So are options: replies only becomes any traffic. *)
Definition gest : term := Eval vm_compute in set_source_address [n4 "A" 10 0 0 0 8] (set_protocol ["tcp"] (set_option ["tcp-established"] (accept "t"))).
Theorem C64_established_refuted : permits_too_much class_ios [(quiet "object-group", [gest])].
Proof.
  eapply (too_much class_ios _ V4 _ _ _ _ (gpkt V4 (ten 1 0 1) 5 "tcp")).
  - vm_compute; reflexivity.
  - vm_compute; reflexivity.
  - reflexivity.
  - gtraffic.
  - first_rule. rule_says. eexists. eexists. split; [left; reflexivity|]. split; [left; reflexivity|]. in_prefix.
  - constructor; [|constructor]. constructor; [|constructor].
    intros _ _ (_ & _ & _ & _ & (_ & O & _) & _). exact (O "tcp-established" (or_introl eq_refl)).
Qed.
Print Assumptions C64_established_refuted.

(** And ICMP types. *)
Definition gping : term := Eval vm_compute in set_source_address [n4 "A" 10 0 0 0 8] (set_protocol ["icmp"] (set_icmp_type ["echo-reply"] (accept "t"))).
Theorem C64_icmp_type_refuted : permits_too_much class_ios [(quiet "object-group", [gping])].
Proof.
  eapply (too_much class_ios _ V4 _ _ _ _ (gpkt V4 (ten 1 0 1) 5 "icmp")).
  - vm_compute; reflexivity.
  - vm_compute; reflexivity.
  - reflexivity.
  - gtraffic.
  - first_rule. rule_says. eexists. eexists. split; [left; reflexivity|]. split; [left; reflexivity|]. in_prefix.
  - constructor; [|constructor]. constructor; [|constructor].
    intros _ _ M. destruct M as (_ & _ & _ & _ & _ & _ & (N & _) & _). destruct N as [N|(o & [<-|[]] & N)]; discriminate N.
Qed.
Print Assumptions C64_icmp_type_refuted.

(** A side with both families: the group is named by its first address of the family, the
    rules by its first address. *)
Definition gboth : term := Eval vm_compute in set_source_address [n4 "A" 10 0 0 0 8; n6 "B" db8 32] (accept "t").
Lemma sixth_matches t : t = gboth \/ t = set_restrict_address_family (Some "inet6") gboth -> term_matches t (gpkt V6 (db8 * 2 ^ 96 + 1) 5 "tcp").
Proof.
  assert (C : side_matches [n4 "A" 10 0 0 0 8; n6 "B" db8 32] [] (V6, db8 * 2 ^ 96 + 1)).
  { split; [right; exists (n6 "B" db8 32); split; [right; left; reflexivity|split; [reflexivity|vm_compute; split; congruence]]|intros (n & [] & _)]. }
  intros [-> | ->]; (split; [split; [|split; [exact C|]]|]).
  all: unfold protocols_match, all_ports_match, prefixes_match, options_match, numbers_match, icmp_match, place_matches, link_matches, either_matches, side_matches,
    any_or, none_of, ports_match, text_range, opt_eq; cbn.
  all: repeat match goal with
  | |- _ /\ _ => split
  | |- True => exact Logic.I
  | |- _ => solve [left; reflexivity | left; left; reflexivity | left; split; reflexivity | intros ? [] | intros (? & [] & _) | reflexivity]
  end.
Qed.
Theorem C64_mixed_side_refuted : permits_too_little class_ios [(quiet "object-group-inet6", [gboth])].
Proof.
  exists V6. eexists. eexists. eexists. eexists. exists (gpkt V6 (db8 * 2 ^ 96 + 1) 5 "tcp"). split; [vm_compute; reflexivity|]. split; [vm_compute; reflexivity|]. split; [reflexivity|].
  split; [gtraffic|]. split.
  - intros ws a [<-|[]] (_ & _ & M). cbn -[group_says] in M. destruct M as (_ & (ls & line & M & _) & _). cbn [In] in M.
    repeat (destruct M as [M|M]; [discriminate M|]). destruct M.
  - eexists. eexists. exists gboth. split; [left; reflexivity|]. split; [left; reflexivity|]. split; [reflexivity|]. split; [discriminate|]. apply sixth_matches. left. reflexivity.
Qed.
Print Assumptions C64_mixed_side_refuted.

(** Terms restricted to inet6 are left out of IPv6 lists, as if the list were for IPv4. *)
Theorem C64_restricted_refuted : permits_too_little class_ios [(quiet "object-group-inet6", [set_restrict_address_family (Some "inet6") gboth])].
Proof.
  exists V6. eexists. eexists. eexists. eexists. exists (gpkt V6 (db8 * 2 ^ 96 + 1) 5 "tcp"). split; [vm_compute; reflexivity|]. split; [vm_compute; reflexivity|]. split; [reflexivity|].
  split; [gtraffic|]. split; [intros ws a []|].
  eexists. eexists. eexists. split; [left; reflexivity|]. split; [left; reflexivity|]. split; [reflexivity|]. split; [discriminate|]. apply sixth_matches. right. reflexivity.
Qed.
Print Assumptions C64_restricted_refuted.

(** ** C30 again: generated configurations *)

(** The lists of a generated configuration decide as the policy does also where duplicate groups
    are removed, and then no two groups of a family have the same members. Partial: besides the
    conditions of C64, headers have no network name in common, none is called net-group, and the
    platform is not Nexus. *)
Theorem C30_generated_lists_decide_partial : forall k today hs text,
  group_policy_ok k today hs -> In k [class_ios; class_xr] -> names_apart today hs ->
  (forall v l, policy_side today hs v l -> l <> [] -> first_name l <> "net-group") -> plain_texts today hs ->
  cisco_text k today hs = Ok text ->
  exists items, config_of text = Some items /\ Forall2 (list_decides k today items) hs (acls_of items) /\
    (forall before h terms, hs = before ++ [(h, terms)] -> In "remove_duplicate_network_objectgroups" (ch_options h) -> no_duplicates items).
Proof. exact policy_lists_decide. Qed.
Print Assumptions C30_generated_lists_decide_partial.

Definition gtwin : term := Eval vm_compute in
  set_source_address [n4 "CORP" 10 0 0 0 8; n4 "CORP" 172 16 0 0 12] (set_destination_address [n4 "OFFICE" 10 0 0 0 8; n4 "LAB" 172 16 0 0 12] (accept "twin")).
Definition gonce : cheader := mkCHeader ["edge"; "object-group"; "remove_duplicate_network_objectgroups"] [].
Definition gtwins : list (cheader * list term) := [(gonce, [gtwin])].
Example C30_generated_example : group_policy_ok class_xr 0 gtwins /\ names_apart 0 gtwins /\
  (forall v l, policy_side 0 gtwins v l -> l <> [] -> first_name l <> "net-group") /\ plain_texts 0 gtwins /\
  cisco_text class_xr 0 gtwins = Ok (join lf
    [""; ""; "object-group network ipv4 CORP"; " 10.0.0.0/8"; " 172.16.0.0/12"; "exit"; ""; "";
     "! $Id:$"; "! $Date:$"; "! $Revision:$"; "no ipv4 access-list edge"; "ipv4 access-list edge"; " remark $Id:$"; ""; "";
     " remark twin"; " permit ipv4 net-group CORP net-group CORP"; ""; "exit"]).
Proof.
  assert (S : forall v l, policy_side 0 gtwins v l -> v = V4 /\ In l [t_source_address gtwin; t_destination_address gtwin]).
  { intros v l (h & terms & name & flags & t & [X|[]] & G & It & F & Il). apply pair_equal_spec in X. destruct X as (<- & <-). destruct G as (G & _).
    split; [destruct v; [reflexivity|discriminate G]|]. destruct It as [<-|[]]. exact Il. }
  split; [|split; [|split; [|split; [|vm_compute; reflexivity]]]].
  - split; [cbn; tauto|]. split.
    + intros h terms [X|[]]. apply pair_equal_spec in X. destruct X as (<- & <-). exists V4, "edge", ["remove_duplicate_network_objectgroups"].
      split; [split; [reflexivity|]; split; [repeat constructor; intros []|]; split; [intros x [<-|[]]; right; left; reflexivity|]; split; [cbn; intuition discriminate|reflexivity]|].
      intros t [<-|[]] F. split; [|discriminate]. constructor.
      * unfold only_cisco_conditions; cbn; repeat split.
      * repeat split.
      * eexists; eexists; split; [reflexivity|cbn; auto].
      * cbn [t_source_address gtwin]. group_side.
      * cbn [t_destination_address gtwin]. group_side.
      * intros q [].
      * intros r [].
      * reflexivity.
    + intros v l l' x S1 S2 _ _ E C. destruct (S v l S1) as (-> & [<-|[<-|[]]]), (S V4 l' S2) as (_ & [<-|[<-|[]]]); try exact C; discriminate E.
  - repeat constructor.
  - intros v l P _. destruct (S v l P) as (_ & [<-|[<-|[]]]); discriminate.
  - intros h terms [X|[]]. apply pair_equal_spec in X. destruct X as (<- & <-). split; [repeat constructor|]. split; [constructor|].
    intros t [<-|[]] _. split; [reflexivity|constructor].
Qed.

(** Two headers that use the same network: with the option the group is removed altogether, and
    the lists no longer permit what the terms accept. *)
Definition gone : term := Eval vm_compute in set_source_address [n4 "A" 10 0 0 0 8] (accept "t").
Definition shared : list (cheader * list term) :=
  [(mkCHeader ["one"; "object-group"; "noverbose"] [], [gone]);
   (mkCHeader ["two"; "object-group"; "noverbose"; "remove_duplicate_network_objectgroups"] [], [gone])].
Theorem C30_shared_network_refuted : exists text items p, cisco_text class_ios 0 shared = Ok text /\ config_of text = Some items /\
  map (fun a => snd (fst a)) (acls_of items) = ["ip access-list extended one"; "ip access-list extended two"] /\
  group_traffic class_ios V4 p /\ (forall h terms, In (h, terms) shared -> exists t, terms = [t] /\ t_action t = ["accept"] /\ in_force 0 t /\ term_matches t p) /\
  forall a ws act, In a (acls_of items) -> In ws (snd a) -> ~ rule_matches items V4 act ws p.
Proof.
  eexists. eexists. exists (gpkt V4 (ten 1 0 1) 5 "tcp"). split; [vm_compute; reflexivity|]. split; [vm_compute; reflexivity|]. split; [reflexivity|]. split; [gtraffic|]. split.
  - assert (M : term_matches gone (gpkt V4 (ten 1 0 1) 5 "tcp")).
    { split; [split; [|split]|].
      2:{ split; [right; exists (n4 "A" 10 0 0 0 8); split; [left; reflexivity|split; [reflexivity|vm_compute; split; congruence]]|intros (n & [] & _)]. }
      all: unfold protocols_match, all_ports_match, prefixes_match, options_match, numbers_match, icmp_match, place_matches, link_matches, either_matches, side_matches,
        any_or, none_of, ports_match, text_range, opt_eq; cbn.
      all: repeat match goal with
      | |- _ /\ _ => split
      | |- True => exact Logic.I
      | |- _ => solve [left; reflexivity | left; left; reflexivity | left; split; reflexivity | intros ? [] | intros (? & [] & _) | reflexivity]
      end. }
    intros h terms [X|[X|[]]]; apply pair_equal_spec in X; destruct X as (_ & <-); exists gone; (split; [reflexivity|]; split; [reflexivity|]; split; [discriminate|exact M]).
  - intros a ws act Ia Iw M. assert (ws = ["permit"; "ip"; "net-group"; "A"; "any"]) as ->.
    { cbn in Ia. destruct Ia as [<-|[<-|[]]]; destruct Iw as [<-|[]]; reflexivity. }
    destruct M as (_ & _ & M). cbn -[group_says] in M. destruct M as (_ & (ls & line & M & _) & _). cbn [In] in M.
    repeat (destruct M as [M|M]; [discriminate M|]). destruct M.
Qed.
Print Assumptions C30_shared_network_refuted.
