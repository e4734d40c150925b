(** Theorems C82: Aruba session access lists (aruba.py). *)
From Coq Require Import Lia.
From Verif Require Import SpecAruba Samples BaseFacts PyStrFacts TextProofs CiscoProofs QuietTerm ArubaProofs ArubaAcl ArubaPolicy.
From Verif Require Import PropsPolicy.
Local Open Scope string_scope.
Local Open Scope list_scope.
Local Open Scope Z_scope.

(** ** C82: the access lists decide as the policy says *)

(** The text is a configuration; it has one access list for each header, with the name of the
    header, and the list gives a packet of the header's family the outcome of the first term in
    force that matches, and none if there is no such term.  Missing for the full claim: the
    policies of the refutations below. *)
Theorem C82_lists_decide_as_policy_partial : forall today fs text,
  ar_policy_ok today fs -> ar_text today fs = Ok text ->
  exists items, aruba_config text = Some items /\ Forall2 (ar_as_policy today items) fs (lists_of items).
Proof. exact ar_lists_decide. Qed.
Print Assumptions C82_lists_decide_as_policy_partial.

(** *** A policy that meets the hypotheses *)
Definition arweb : term := Eval vm_compute in set_protocol ["tcp"; "udp"] (set_destination_port [(80, 80); (1024, 65535)]
  (set_source_address [v4 10 0 0 0 8; v6 db8 32] (set_destination_address [v4 192 0 2 7 32] (accept "Web")))).
Definition arping : term := Eval vm_compute in set_protocol ["icmp"] (set_option ["source-is-user"] (accept "ping")).
Definition arold : term := Eval vm_compute in set_expiration (Some 100) (set_icmp_type ["echo-reply"] (set_protocol ["icmp"] (accept "old"))).
Definition arrest : term := Eval vm_compute in set_action ["deny"] (blank "rest").
Definition arsix : term := Eval vm_compute in set_comment ["Six."] (set_source_address [v4 10 0 0 0 8; v6 db8 32] (accept "six")).
Definition ar_sample : list (option (list string) * list term) := [(Some ["EDGE"], [arold; arweb; arping; arrest]); (Some ["EDGE6"; "inet6"], [arweb; arsix])].
Definition ar_sample_text : string := join lf
  ["# $Id:$"; "# $Date:$"; "# $Revision:$";
   "netdestination web_src"; "  network 10.0.0.0 255.0.0.0"; "!"; ""; "netdestination web_dst"; "  host 192.0.2.7"; "!"; "";
   "ip access-list session EDGE";
   "  alias web_src alias web_dst tcp 80 permit"; "  alias web_src alias web_dst tcp 1024 65535 permit";
   "  alias web_src alias web_dst udp 80 permit"; "  alias web_src alias web_dst udp 1024 65535 permit";
   "  user any 1 permit"; "  any any any deny"; "!";
   "netdestination6 six_src"; "  network 2001:db8::/32"; "!"; "";
   "ip access-list session EDGE6"; ""; "  # Six."; "  ipv6 alias six_src any any permit"; "!"; ""].
Ltac ar_ok := match goal with
  | |- only_cisco_conditions _ => unfold only_cisco_conditions; repeat split
  | |- meant_for _ _ => split; [left; reflexivity|intros []]
  | |- exists a r, t_action _ = a :: r /\ _ => eexists; eexists; split; [reflexivity|cbn; auto]
  | |- one_word _ => reflexivity
  | |- valid_list _ => valid_tac
  | |- _ /\ _ => repeat split end.
Lemma arweb_ok : ar_term_ok arweb.
Proof.
  constructor; try ar_ok.
  - intros o [].
  - right. right. split; [|split; discriminate]. intros q [<-|[<-|[]]]; (split; [apply str_in_spec; reflexivity|cbn; intuition discriminate]).
  - intros r [<-|[<-|[]]]; cbn; [split; [lia|left; reflexivity]|split; [lia|right; split; [lia|reflexivity]]].
Qed.
Lemma ar_plain_ok t : In t [arping; arrest; arsix] -> ar_term_ok t.
Proof.
  intros [<-|[<-|[<-|[]]]]; (constructor; try ar_ok); try (intros r []).
  - subst r. left. split; reflexivity.
  - destruct H.
  - right. left. exists "icmp". split; [left; reflexivity|split; reflexivity].
  - left. split; reflexivity.
  - left. split; reflexivity.
Qed.
Example C82_example : ar_policy_ok 100 ar_sample /\ ar_text 100 ar_sample = Ok ar_sample_text.
Proof.
  split; [|vm_compute; reflexivity].
  assert (L : forall f t, In f ar_sample -> In t (snd f) -> in_force 100 t -> In t [arweb; arping; arrest; arsix]).
  { intros f t [<-|[<-|[]]] I F; cbn [snd In] in I.
    - destruct I as [<-|[<-|[<-|[<-|[]]]]]; [specialize (F 100 eq_refl); lia|cbn; auto..].
    - destruct I as [<-|[<-|[]]]; cbn; auto. }
  split.
  - intros f I. assert (exists name rest, ar_header f name rest) as (name & rest & Hh) by (destruct I as [<-|[<-|[]]]; eexists; eexists; split; reflexivity).
    exists name, rest. split; [exact Hh|]. intros t It F. destruct (L f t I It F) as [<-|H]; [exact arweb_ok|apply ar_plain_ok, H].
  - intros f f' o o' v t t' I I' _ _ _ _ It It' F F' E. assert (t = t') as <-; [|auto].
    destruct (L f t I It F) as [<-|[<-|[<-|[<-|[]]]]], (L f' t' I' It' F') as [<-|[<-|[<-|[<-|[]]]]]; first [reflexivity|vm_compute in E; discriminate E].
Qed.

(** *** Policies whose lists decide differently *)

Definition apkt (src dst : Z) (proto : string) (sport dport : Z) (type : string) : packet :=
  mkPacket (V4, src) (V4, dst) proto sport dport type 0 (fun _ => False)
    (fun _ => False) (fun _ => False) (fun _ => False) (fun _ => False)
    "0" "" 0 64 100 64 "" "" "" "" "" "" "" "inet" "aruba".
(** The only list of the text gives the packet this outcome. *)
Definition ar_gives (text : string) (p : packet) (o : string) : Prop :=
  exists items name rules, aruba_config text = Some items /\ lists_of items = [(name, rules)] /\ ar_list_decides items V4 rules p o.
Definition ar_lets_through (t : term) (p : packet) : Prop :=
  exists text, ar_text 0 [(Some ["EDGE"], [t])] = Ok text /\ ar_traffic V4 p /\ ar_gives text p "permit" /\ ~ term_matches t p.
Ltac ar_traf := split; [reflexivity|]; split; [cbn; lia|]; split; [reflexivity|]; split; [cbn; lia|reflexivity].
Ltac ar_first := exists [] ; eexists; exists []; split; [reflexivity|]; split; [|intros ? ? []].
(** Keywords that the lists cannot express are not rejected, because the check of keywords never
    applies to this generator: the terms are written without them.  Source ports, *)
Theorem C82_source_port_refuted : exists p, ar_lets_through (set_source_port [(53, 53)] (set_destination_port [(80, 80)] (set_protocol ["tcp"] (accept "t")))) p.
Proof.
  exists (apkt 1 2 "tcp" 99 80 ""). eexists. split; [vm_compute; reflexivity|]. split; [ar_traf|]. split.
  - eexists. eexists. eexists. split; [vm_compute; reflexivity|]. split; [reflexivity|]. ar_first.
    exists ["tcp"; "80"]. split; [reflexivity|]. split; [cbn; auto|]. split; [exact Logic.I|]. split; [exact Logic.I|]. split; reflexivity.
  - intros (_ & _ & (_ & [X|(r & [<-|[]] & X)] & _) & _); [discriminate X|]. cbv in X. destruct X as (_ & X). apply X. reflexivity.
Qed.
Print Assumptions C82_source_port_refuted.
(** ICMP types, *)
Theorem C82_icmp_type_refuted : exists p, ar_lets_through (set_icmp_type ["echo-reply"] (set_protocol ["icmp"] (accept "t"))) p.
Proof.
  exists (apkt 1 2 "icmp" 0 0 "redirect"). eexists. split; [vm_compute; reflexivity|]. split; [ar_traf|]. split.
  - eexists. eexists. eexists. split; [vm_compute; reflexivity|]. split; [reflexivity|]. ar_first.
    exists ["1"]. split; [reflexivity|]. split; [cbn; auto|]. split; [exact Logic.I|]. split; [exact Logic.I|]. right. exists 1. split; [reflexivity|]. apply GenProofs.assoc_in. reflexivity.
  - intros (_ & _ & _ & _ & _ & _ & ([X|(r & [<-|[]] & X)] & _) & _); discriminate X.
Qed.
Print Assumptions C82_icmp_type_refuted.
(** excluded addresses, *)
Theorem C82_exclude_refuted : exists p, ar_lets_through (set_source_address_exclude [v4 10 1 0 0 16] (set_source_address [v4 10 0 0 0 8] (accept "t"))) p.
Proof.
  exists (apkt (10 * 2 ^ 24 + 2 ^ 16) 2 "tcp" 99 80 ""). eexists. split; [vm_compute; reflexivity|]. split; [ar_traf|]. split.
  - eexists. eexists. eexists. split; [vm_compute; reflexivity|]. split; [reflexivity|]. ar_first.
    exists ["any"]. split; [reflexivity|]. split; [cbn; auto|]. split; [|split; [exact Logic.I|left; reflexivity]].
    eexists. eexists. split; [left; reflexivity|]. split; [left; reflexivity|].
    assert (W : member_words (v4 10 0 0 0 8) = ["network"; "10.0.0.0"; "255.0.0.0"]) by (vm_compute; reflexivity). rewrite <- W.
    apply (member_says_net V4 (v4 10 0 0 0 8)); [reflexivity|assert (L : valid_list [v4 10 0 0 0 8]) by valid_tac; inversion L; assumption|cbn; lia|]. split; [reflexivity|vm_compute; intuition congruence].
  - intros ((_ & (_ & X) & _) & _). apply X. exists (v4 10 1 0 0 16). split; [left; reflexivity|]. split; [reflexivity|vm_compute; intuition congruence].
Qed.
Print Assumptions C82_exclude_refuted.
(** and the restriction to other platforms. *)
Theorem C82_platform_refuted : exists p, ar_lets_through (set_platform ["juniper"] (accept "t")) p.
Proof.
  exists (apkt 1 2 "tcp" 99 80 ""). eexists. split; [vm_compute; reflexivity|]. split; [ar_traf|]. split.
  - eexists. eexists. eexists. split; [vm_compute; reflexivity|]. split; [reflexivity|]. ar_first.
    exists ["any"]. split; [reflexivity|]. split; [cbn; auto|]. split; [exact Logic.I|]. split; [exact Logic.I|left; reflexivity].
  - intros (_ & _ & _ & _ & _ & _ & _ & ([X|(q & [<-|[]] & X)] & _) & _); discriminate X.
Qed.
Print Assumptions C82_platform_refuted.

(** Terms for tcp without ports are not written at all: what they deny is permitted by a later
    term. *)
Theorem C82_no_ports_refuted : exists text p,
  let deny := set_protocol ["tcp"] (set_action ["deny"] (blank "t")) in
  ar_text 0 [(Some ["EDGE"], [deny; accept "rest"])] = Ok text /\ ar_traffic V4 p /\ ar_gives text p "permit" /\
  terms_decide (fun t => in_force 0 t /\ term_matches t p) [deny; accept "rest"] "deny".
Proof.
  eexists. exists (apkt 1 2 "tcp" 99 80 ""). cbv zeta. split; [vm_compute; reflexivity|]. split; [ar_traf|]. split.
  - eexists. eexists. eexists. split; [vm_compute; reflexivity|]. split; [reflexivity|]. ar_first.
    exists ["any"]. split; [reflexivity|]. split; [cbn; auto|]. split; [exact Logic.I|]. split; [exact Logic.I|left; reflexivity].
  - exists []. eexists. eexists. split; [reflexivity|]. split; [|intros ? ? []]. split; [|eexists; eexists; split; [reflexivity|reflexivity]]. split; [intros d X; discriminate X|].
    apply (quiet_matches "aruba"); [constructor; repeat split; try reflexivity; try (left; reflexivity); intros []|reflexivity|].
    split; [split; [left; reflexivity|intros (n & [] & _)]|]. split; [split; [left; reflexivity|intros (n & [] & _)]|].
    split; [right; exists "tcp"; split; [left; reflexivity|reflexivity]|]. split; [left; reflexivity|]. split; [left; reflexivity|]. split; [intros o []|left; reflexivity].
Qed.
Print Assumptions C82_no_ports_refuted.
(** Of a list of protocols with icmp, gre or esp only that one is written; and of an action other
    than accept and deny nothing: the rule has no outcome. *)
Theorem C82_one_protocol_refuted : exists text text',
  ar_text 0 [(Some ["EDGE"], [set_destination_port [(80, 80)] (set_protocol ["tcp"; "icmp"] (accept "t"))])] = Ok text /\
  option_map lists_of (aruba_config text) = Some [("EDGE", [["any"; "any"; "1"; "permit"]])] /\
  ar_text 0 [(Some ["EDGE"], [set_action ["reject"] (blank "t")])] = Ok text' /\
  option_map lists_of (aruba_config text') = Some [("EDGE", [["any"; "any"; "any"]])].
Proof. eexists. eexists. split; [vm_compute; reflexivity|]. split; [vm_compute; reflexivity|]. split; vm_compute; reflexivity. Qed.
Print Assumptions C82_one_protocol_refuted.
(** The ends of a range are written in the order of a set of numbers: 15-16 becomes 16 15. *)
Theorem C82_range_refuted : exists text p,
  let t := set_destination_port [(15, 16)] (set_protocol ["tcp"] (accept "t")) in
  ar_text 0 [(Some ["EDGE"], [t])] = Ok text /\ ar_traffic V4 p /\ term_matches t p /\
  option_map lists_of (aruba_config text) = Some [("EDGE", [["any"; "any"; "tcp"; "16"; "15"; "permit"]])] /\ ~ ar_gives text p "permit".
Proof.
  eexists. exists (apkt 1 2 "tcp" 99 15 ""). cbv zeta. split; [vm_compute; reflexivity|]. split; [ar_traf|]. split; [|split; [vm_compute; reflexivity|]].
  - apply (quiet_matches "aruba"); [constructor; repeat split; try reflexivity; try (left; reflexivity); intros []|reflexivity|].
    split; [split; [left; reflexivity|intros (n & [] & _)]|]. split; [split; [left; reflexivity|intros (n & [] & _)]|].
    split; [right; exists "tcp"; split; [left; reflexivity|reflexivity]|]. split; [left; reflexivity|]. split; [right; exists (15, 16); split; [left; reflexivity|vm_compute; intuition congruence]|]. split; [intros o []|left; reflexivity].
  - intros (items & name & rules & E & L & (b & x & a & Er & S & _)). vm_compute in E.
    assert (items = [AList "EDGE" [["any"; "any"; "tcp"; "16"; "15"; "permit"]]]) as -> by congruence.
    assert (rules = [["any"; "any"; "tcp"; "16"; "15"; "permit"]]) as -> by (cbn in L; congruence).
    assert (x = ["any"; "any"; "tcp"; "16"; "15"; "permit"]) as ->.
    { destruct b as [|y b]; [cbn in Er; congruence|]. exfalso. apply (f_equal (@List.length _)) in Er. rewrite List.app_length in Er. cbn in Er. lia. }
    destruct S as (sv & Es & _ & _ & _ & Sv). change (["tcp"; "16"; "15"; "permit"]) with (["tcp"; "16"; "15"] ++ ["permit"]) in Es. apply app_inj_tail in Es. destruct Es as (<- & _).
    destruct Sv as (_ & lo & hi & E1 & E2 & H). cbn in E1, E2. injection E1 as <-. injection E2 as <-. cbn in H. lia.
Qed.
Print Assumptions C82_range_refuted.
(** Names of terms are written in lower case: two terms share the addresses of both. *)
Theorem C82_names_refuted : exists text p,
  let ts := [set_source_address [v4 10 0 0 0 8] (accept "web"); set_source_address [v4 11 0 0 0 8] (set_action ["deny"] (blank "Web"))] in
  ar_text 0 [(Some ["EDGE"], ts)] = Ok text /\ ar_traffic V4 p /\ ar_gives text p "permit" /\
  forall o, terms_decide (fun t => in_force 0 t /\ term_matches t p) ts o -> o = "deny".
Proof.
  eexists. exists (apkt (11 * 2 ^ 24) 2 "tcp" 99 80 ""). cbv zeta. split; [vm_compute; reflexivity|]. split; [ar_traf|]. split.
  - eexists. eexists. eexists. split; [vm_compute; reflexivity|]. split; [reflexivity|].
    exists []; eexists; eexists; split; [reflexivity|]; split; [|intros ? ? []].
    exists ["any"]. split; [reflexivity|]. split; [cbn; auto|]. split; [|split; [exact Logic.I|left; reflexivity]].
    eexists. eexists. split; [right; left; reflexivity|]. split; [left; reflexivity|].
    assert (W : member_words (v4 11 0 0 0 8) = ["network"; "11.0.0.0"; "255.0.0.0"]) by (vm_compute; reflexivity). rewrite <- W.
    apply (member_says_net V4 (v4 11 0 0 0 8)); [reflexivity|assert (L : valid_list [v4 11 0 0 0 8]) by valid_tac; inversion L; assumption|cbn; lia|]. split; [reflexivity|vm_compute; intuition congruence].
  - intros o (b & x & a & Er & ((_ & M) & w & r & Ea & ->) & _).
    destruct b as [|y b]; [|destruct b as [|z b]; [|exfalso; apply (f_equal (@List.length _)) in Er; rewrite List.app_length in Er; cbn in Er; lia]].
    + assert (x = set_source_address [v4 10 0 0 0 8] (accept "web")) as -> by (cbn [app] in Er; congruence). exfalso.
      destruct M as ((_ & ([X|(n & [<-|[]] & X)] & _) & _) & _); [discriminate X|]. destruct X as (_ & X). vm_compute in X. destruct X as (_ & X). discriminate X.
    + assert (x = set_source_address [v4 11 0 0 0 8] (set_action ["deny"] (blank "Web"))) as -> by (cbn [app] in Er; congruence).
      assert (w = "deny") as -> by (cbn in Ea; congruence). reflexivity.
Qed.
Print Assumptions C82_names_refuted.
(** Headers for other platforms are written too, as lists with the name None. *)
Theorem C82_other_header_refuted : exists text,
  ar_text 0 [(Some ["EDGE"], [accept "t"]); (None, [set_action ["deny"] (blank "u")])] = Ok text /\
  option_map lists_of (aruba_config text) = Some [("EDGE", [["any"; "any"; "any"; "permit"]]); ("None", [["any"; "any"; "any"; "deny"]])].
Proof. eexists. split; vm_compute; reflexivity. Qed.
Print Assumptions C82_other_header_refuted.
