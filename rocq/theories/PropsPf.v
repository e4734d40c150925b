(** Theorems C85: Packet Filter rules (packetfilter.py). *)
From Coq Require Import Lia ZifyBool ZifyNat.
From Verif Require Import SpecPf Samples BaseFacts PyStrFacts TextProofs CiscoProofs QuietTerm GceProofs PfPolicy.
From Verif Require Import PropsPolicy.
Local Open Scope string_scope.
Local Open Scope list_scope.
Local Open Scope Z_scope.

(** ** C85: the rules decide as the policy file says *)

(** The text is a configuration.  On its way in or out a packet gets the outcome of the first term in
    force that matches it, of the terms of all headers for its family and direction, and none if there
    is no such term; this includes what the tables hold.  It is so for packets that open a connection,
    and for all packets if the headers ask for rules without state.  Missing for the full claim: the
    policies of the refutations below, and protocols pf does not know by name. *)
Theorem C85_rules_decide_as_policy_partial : forall today D fs lines,
  pf_policy_ok today D fs -> pf_text today fs = Ok lines ->
  exists conf, pf_read lines = Some conf /\
    forall d p, In d ["in"; "out"] -> pf_traffic p -> opens p \/ stateless fs ->
    forall o, pf_decides conf d p o <-> first_says (pf_term_says today d p) (all_terms fs) o.
Proof. exact pf_policy_decides. Qed.
Print Assumptions C85_rules_decide_as_policy_partial.

(** *** A policy that meets the hypotheses *)
Definition pn (tok : string) (n : net) : net := named_parent n tok.
Definition pfweb : term := Eval vm_compute in set_logging ["true"] (set_protocol ["tcp"; "udp"] (set_destination_port [(80, 80); (8000, 8080); (80, 80)]
  (set_source_address [pn "NET" (v4 10 0 0 0 8); pn "NET" (v6 db8 32)] (set_destination_address [pn "WEB" (v4 192 0 2 7 32); pn "WEB" (v4 192 0 2 8 32)] (accept "web"))))).
Definition pfping : term := Eval vm_compute in set_protocol ["icmp"] (set_icmp_type ["echo-reply"; "unreachable"]
  (set_source_interface (Some "em0") (set_comment ["Pings."] (accept "ping")))).
Definition pfest : term := Eval vm_compute in set_option ["tcp-established"] (set_protocol ["tcp"] (set_source_port [(1024, 65535)] (accept "est"))).
Definition pfold : term := Eval vm_compute in set_expiration (Some 100) (set_protocol ["ipip"] (accept "old")).
Definition pfother : term := Eval vm_compute in set_platform ["juniper"] (set_protocol ["ipip"] (accept "other")).
Definition pfrest : term := Eval vm_compute in set_action ["reject"] (blank "rest").
Definition pf_sample : list (pf_header * list term) :=
  [((Some ["EDGE"; "in"; "mixed"], ["Edge rules."]), [pfold; pfweb; pfping; pfest]); ((None, []), [pfother]); ((Some ["CORE"; "nostate"], []), [pfother; pfrest])].
Definition pf_sample_text : list string :=
  ["table <NET> {10.0.0.0/8,\"; "2001:db8::/32}"; "table <WEB> {192.0.2.7/32,\"; "192.0.2.8/32}";
   "# Packetfilter EDGE Policy"; "# Edge rules."; "#"; "# $Id:$"; "# $Date:$"; "# $Revision:$"; "# mixed";
   ""; "# term web"; "pass in quick log proto { tcp udp } from { <NET> } to { <WEB> } port { 80 8000:8080 } keep state";
   ""; "# term ping"; "# Pings."; "pass in quick on em0 proto { icmp } from { any } to { any } icmp-type { 0, 3 } keep state";
   ""; "# term est"; "pass in quick proto { tcp } from { any } port { 1024:65535 } to { any } flags A/A keep state"; "";
   "# Packetfilter CORE Policy"; "# $Id:$"; "# $Date:$"; "# $Revision:$"; "# inet";
   ""; "# term rest"; "block return quick inet from { any } to { any } no state"; ""].
Definition pf_sample_names (name : string) (x : ipaddr) : Prop :=
  exists m, In m (t_source_address pfweb ++ t_destination_address pfweb) /\ pf_short m = name /\ covers m x.
Lemma pf_sample_ok t : In t [pfweb; pfping; pfest; pfrest] -> pf_term_ok t.
Proof.
  intros I. constructor.
  - destruct I as [<-|[<-|[<-|[<-|[]]]]]; (split; [discriminate|reflexivity]).
  - destruct I as [<-|[<-|[<-|[<-|[]]]]]; eexists; eexists; (split; [reflexivity|discriminate]).
  - destruct I as [<-|[<-|[<-|[<-|[]]]]]; split; reflexivity.
  - intros q J. right. apply str_in_spec. destruct I as [<-|[<-|[<-|[<-|[]]]]]; cbn in J; repeat (destruct J as [<-|J]; [reflexivity|]); destruct J.
  - intros r J. destruct I as [<-|[<-|[<-|[<-|[]]]]]; cbn in J; repeat (destruct J as [<-|J]; [cbn; lia|]); destruct J.
  - destruct I as [<-|[<-|[<-|[<-|[]]]]]; intros X; first [reflexivity|destruct (X eq_refl)].
  - intros i J. destruct I as [<-|[<-|[<-|[<-|[]]]]]; destruct J as [J|J]; try discriminate J. cbn in J. injection J as <-. split; [discriminate|reflexivity].
  - intros l J. destruct I as [<-|[<-|[<-|[<-|[]]]]]; cbn in J; try (destruct J; fail). destruct J as [<-|[]]. reflexivity.
  - destruct I as [<-|[<-|[<-|[<-|[]]]]]; reflexivity.
  - destruct I as [<-|[<-|[<-|[<-|[]]]]]; repeat split; discriminate.
Qed.
Example C85_example : pf_policy_ok 100 pf_sample_names pf_sample /\ pf_text 100 pf_sample = Ok pf_sample_text.
Proof.
  split; [|vm_compute; reflexivity]. constructor.
  - intros h terms I N. destruct I as [E|[E|[E|[]]]]; apply pair_equal_spec in E; destruct E as (<- & <-); [|destruct N; reflexivity|];
      eexists; eexists; (split; [reflexivity|split; [split; [discriminate|reflexivity]|]]); intros l J; cbn in J; [destruct J as [<-|[]]; reflexivity|destruct J].
  - intros h terms t I N J F M. apply pf_sample_ok. destruct I as [E|[E|[E|[]]]]; apply pair_equal_spec in E; destruct E as (<- & <-).
    + destruct J as [<-|J]; [specialize (F 100 eq_refl); lia|cbn in J; cbn; tauto].
    + destruct N; reflexivity.
    + destruct J as [<-|[<-|[]]]; [destruct M as ([X|[X|[]]] & _); discriminate X|cbn; auto].
  - intros h terms t l I N J K.
    assert (L : l = [] \/ l = t_source_address pfweb \/ l = t_destination_address pfweb).
    { destruct I as [E|[E|[E|[]]]]; apply pair_equal_spec in E; destruct E as (<- & <-); [|destruct N; reflexivity|]; cbn in J; repeat (destruct J as [<-|J]; [cbn in K; destruct K as [<-|[<-|[]]]; auto|]); destruct J. }
    clear - L. destruct L as [->|L]; [split; [constructor|split; [intros n []|intros n x []]]|].
    split; [destruct L as [->| ->]; valid_tac|]. split; [intros n I; destruct L as [->| ->]; destruct I as [<-|[<-|[]]]; (split; [discriminate|reflexivity])|].
    intros n x I. unfold pf_sample_names. split.
    + intros (m & Im & E & C). exists m. split; [|auto]. apply in_app_or in Im.
      destruct L as [->| ->]; destruct Im as [Im|Im]; try exact Im; exfalso; destruct I as [<-|[<-|[]]]; destruct Im as [<-|[<-|[]]]; discriminate E.
    + intros (m & Im & E & C). exists m. split; [apply in_or_app; destruct L as [->| ->]; auto|auto].
Qed.

(** *** Policies whose rules decide differently *)

Definition pfpkt (src dst : Z) (proto : string) (sport dport : Z) (flags : list string) : packet :=
  mkPacket (V4, src) (V4, dst) proto sport dport "" 0 (fun o => In o flags)
    (fun _ => False) (fun _ => False) (fun _ => False) (fun _ => False)
    "0" "" 0 64 100 64 "" "" "" "" "" "" "" "inet" "packetfilter".
Definition pf_gives (lines : list string) (d : string) (p : packet) (o : string) : Prop := exists conf, pf_read lines = Some conf /\ pf_decides conf d p o.
Lemma pfpkt_traffic src dst proto sport dport flags : 0 <= src < 2 ^ 32 -> 0 <= dst < 2 ^ 32 -> In flags [[]; ["syn"]; ["ack"; "established"; "tcp-established"]] -> pf_traffic (pfpkt src dst proto sport dport flags).
Proof.
  intros A B C. constructor; try reflexivity; [exact A|exact B| |].
  - split; split; intros I; cbn in *; repeat (destruct C as [<-|C]); cbn in *; try tauto; intuition congruence.
  - split; [intros I|intros H; specialize (H "psh" ltac:(cbn; tauto))]; exfalso; cbn in *; repeat (destruct C as [<-|C]); cbn in *; try tauto; intuition congruence.
Qed.
Ltac pf_rest := repeat split; try (intros ? X; discriminate X); try (eexists; split; [left; reflexivity|left; reflexivity]).
(** Excluded addresses: the table that they are in is not written, and the list in the rule is read as
    one rule for the addresses and one for all that are not excluded. *)
Theorem C85_exclude_refuted : exists lines p,
  let t := set_source_address_exclude [pn "LAB" (v4 10 1 0 0 16)] (set_source_address [pn "NET" (v4 10 0 0 0 8)] (accept "t")) in
  pf_text 0 [((Some ["EDGE"], []), [t])] = Ok lines /\ pf_traffic p /\ opens p /\ pf_gives lines "in" p "pass" /\ ~ term_matches t p.
Proof.
  eexists. exists (pfpkt (11 * 2 ^ 24) 2 "udp" 99 80 []). cbv zeta. split; [vm_compute; reflexivity|]. split; [apply pfpkt_traffic; cbn; auto; lia|]. split; [discriminate|]. split.
  - eexists. split; [vm_compute; reflexivity|]. exists []. eexists. exists []. split; [reflexivity|]. split; [|split; [reflexivity|split; [intros ? []|left; reflexivity]]].
    split; [intros ? X; discriminate X|]. split; [intros ? X; discriminate X|]. split; [intros f X; injection X as <-; reflexivity|]. split; [intros ? X; discriminate X|]. split.
    + exists "!<LAB>". split; [left; reflexivity|]. right. right. exists "<LAB>". split; [reflexivity|]. intros (l & w & [X|[]] & _). discriminate X.
    + pf_rest. intros ? _ X. discriminate X.
  - intros ((_ & (X & _) & _) & _). destruct X as [X|(n & [<-|[]] & _ & C)]; [discriminate X|]. cbn in C. lia.
Qed.
Print Assumptions C85_exclude_refuted.
(** Rules with state: a term that denies all of tcp looks at the first packet of a connection only, so
    that a later term for established connections lets the others pass. *)
Theorem C85_stateful_refuted : exists lines p,
  let one := set_action ["deny"] (set_protocol ["tcp"] (blank "one")) in
  let two := set_option ["tcp-established"] (set_protocol ["tcp"] (accept "two")) in
  pf_text 0 [((Some ["EDGE"], []), [one; two])] = Ok lines /\ pf_traffic p /\ pf_gives lines "in" p "pass" /\
  first_says (pf_term_says 0 "in" p) (all_terms [((Some ["EDGE"], []), [one; two])]) "block drop".
Proof.
  eexists. exists (pfpkt 1 2 "tcp" 99 80 ["ack"; "established"; "tcp-established"]). cbv zeta. split; [vm_compute; reflexivity|]. split; [apply pfpkt_traffic; cbn; auto; lia|]. split.
  - eexists. split; [vm_compute; reflexivity|]. eexists [_]. eexists. exists []. split; [reflexivity|].
    split; [|split; [reflexivity|split; [|left; reflexivity]]].
    + split; [intros ? X; discriminate X|]. split; [intros ? X; discriminate X|]. split; [intros f X; injection X as <-; reflexivity|]. split.
      { intros l X. injection X as <-. exists "tcp". split; [left; reflexivity|]. left. split; [apply str_in_spec; reflexivity|reflexivity]. }
      split; [eexists; split; [left; reflexivity|left; reflexivity]|]. split; [intros ? X; discriminate X|]. split; [eexists; split; [left; reflexivity|left; reflexivity]|]. split; [intros ? X; discriminate X|]. split; [|split; intros ? X; discriminate X].
      intros w X _. cbn in X. injection X as <-. exists "A", "A". split; [reflexivity|]. split; [reflexivity|]. intros c name I Hc. split; [|intros _]; cbn in I; repeat (destruct I as [E|I]; [injection E as <- <-|]); try destruct I; try discriminate Hc; cbn; auto.
    + intros y [<-|[]] _ (_ & _ & _ & _ & _ & _ & _ & _ & X & _). specialize (X _ eq_refl eq_refl). destruct X as (set & mask & E & N & X). exfalso.
      assert (E2 : set = "S" /\ mask = "SA").
      { destruct set as [|a [|b set]]; cbn in E.
        - discriminate E.
        - injection E as <- E. auto.
        - injection E as <- <- E. cbn in N. discriminate N. }
      destruct E2 as (-> & ->). specialize (X "S"%char "syn" (or_introl eq_refl) eq_refl). cbn in X. destruct X as (_ & X). specialize (X eq_refl). intuition congruence.
  - exists []. eexists. eexists. split; [reflexivity|]. split; [|intros ? ? []]. exists "EDGE", [], "deny", []. split; [reflexivity|]. split; [right; reflexivity|]. split; [exact Logic.I|]. split; [intros d X; discriminate X|].
    split; [split; [left; reflexivity|intros []]|]. split; [|split; reflexivity].
    apply (quiet_matches "packetfilter"); [constructor; repeat split; try reflexivity; try (left; reflexivity); intros []|reflexivity|].
    split; [split; [left; reflexivity|intros (? & [] & _)]|]. split; [split; [left; reflexivity|intros (? & [] & _)]|]. split; [right; eexists; split; [left; reflexivity|reflexivity]|].
    split; [left; reflexivity|]. split; [left; reflexivity|]. split; [intros ? []|left; reflexivity].
Qed.
Print Assumptions C85_stateful_refuted.
(** The wish of one header for rules without state goes over to the headers that follow. *)
Theorem C85_nostate_refuted : exists alone after c1 c2,
  let h2 := ((Some ["CORE"], []), [accept "two"]) in
  pf_text 0 [h2] = Ok alone /\ pf_read alone = Some c1 /\ map pr_state (snd c1) = [Some "keep"] /\
  pf_text 0 [((Some ["EDGE"; "nostate"], []), [accept "one"]); h2] = Ok after /\ pf_read after = Some c2 /\ map pr_state (snd c2) = [Some "no"; Some "no"].
Proof. do 4 eexists. cbv zeta. split; [vm_compute; reflexivity|]. split; [vm_compute; reflexivity|]. split; [reflexivity|]. split; [vm_compute; reflexivity|]. split; vm_compute; reflexivity. Qed.
Print Assumptions C85_nostate_refuted.
(** A comment that ends in a backslash takes the rule below it. *)
Theorem C85_comment_refuted : exists lines,
  pf_text 0 [((Some ["EDGE"], []), [set_comment ["see C:\"] (set_action ["deny"] (blank "t"))])] = Ok lines /\ pf_read lines = Some ([], []).
Proof. eexists. split; vm_compute; reflexivity. Qed.
Print Assumptions C85_comment_refuted.
(** The action next, which decides nothing, is written as pass. *)
Theorem C85_next_refuted : exists lines p,
  let t := set_action ["next"] (blank "t") in
  pf_text 0 [((Some ["EDGE"], []), [t])] = Ok lines /\ pf_traffic p /\ opens p /\ pf_gives lines "in" p "pass" /\ forall o, ~ pf_term_says 0 "in" p ((Some ["EDGE"], []), t) o.
Proof.
  eexists. exists (pfpkt 1 2 "udp" 99 80 []). cbv zeta. split; [vm_compute; reflexivity|]. split; [apply pfpkt_traffic; cbn; auto; lia|]. split; [discriminate|]. split.
  - eexists. split; [vm_compute; reflexivity|]. exists []. eexists. exists []. split; [reflexivity|]. split; [|split; [reflexivity|split; [intros ? []|right; intros ? []]]].
    split; [intros ? X; discriminate X|]. split; [intros ? X; discriminate X|]. split; [intros f X; injection X as <-; reflexivity|]. split; [intros ? X; discriminate X|].
    split; [eexists; split; [left; reflexivity|left; reflexivity]|]. split; [intros ? X; discriminate X|]. split; [eexists; split; [left; reflexivity|left; reflexivity]|]. split; [intros ? X; discriminate X|].
    split; [intros ? _ X; discriminate X|split; intros ? X; discriminate X].
  - intros o (nm & op & a & m & _ & _ & _ & _ & _ & _ & E & V). cbn in E. injection E as <- _. discriminate V.
Qed.
Print Assumptions C85_next_refuted.
(** The protocol ipip, which the program knows by its number, ends in an error. *)
Theorem C85_ipip_refuted : pf_text 0 [((Some ["EDGE"], []), [set_protocol ["ipip"] (accept "t")])] = Raise (Exn "TypeError").
Proof. vm_compute. reflexivity. Qed.
Print Assumptions C85_ipip_refuted.
(** Terms that are no longer in force still give their addresses to the tables: a name that a term in
    force uses for part of them stands for all. *)
Theorem C85_expired_table_refuted : exists lines p,
  let old := set_expiration (Some 5) (set_source_address [pn "NET" (v4 11 0 0 0 8)] (accept "old")) in
  let t := set_source_address [pn "NET" (v4 10 0 0 0 8)] (accept "t") in
  pf_text 10 [((Some ["EDGE"], []), [old; t])] = Ok lines /\ pf_traffic p /\ opens p /\ pf_gives lines "in" p "pass" /\ ~ term_matches t p.
Proof.
  eexists. exists (pfpkt (11 * 2 ^ 24) 2 "udp" 99 80 []). cbv zeta. split; [vm_compute; reflexivity|]. split; [apply pfpkt_traffic; cbn; auto; lia|]. split; [discriminate|]. split.
  - eexists. split; [vm_compute; reflexivity|]. exists []. eexists. exists []. split; [reflexivity|]. split; [|split; [reflexivity|split; [intros ? []|left; reflexivity]]].
    split; [intros ? X; discriminate X|]. split; [intros ? X; discriminate X|]. split; [intros f X; injection X as <-; reflexivity|]. split; [intros ? X; discriminate X|]. split.
    + exists "<NET>". split; [left; reflexivity|]. right. left. split; [reflexivity|]. exists ["10.0.0.0/8"; "11.0.0.0/8"], "11.0.0.0/8". split; [left; reflexivity|]. split; [right; left; reflexivity|].
      assert (V : valid (v4 11 0 0 0 8)) by valid_tac. assert (On : on_net (V4, 11 * 2 ^ 24)) by (vm_compute; intuition congruence).
      refine (proj2 (range_text (v4 11 0 0 0 8) (V4, 11 * 2 ^ 24) V On) _). split; [reflexivity|cbn; lia].
    + split; [intros ? X; discriminate X|]. split; [eexists; split; [left; reflexivity|left; reflexivity]|]. split; [intros ? X; discriminate X|]. split; [intros ? _ X; discriminate X|split; intros ? X; discriminate X].
  - intros ((_ & (X & _) & _) & _). destruct X as [X|(n & [<-|[]] & _ & C)]; [discriminate X|]. cbn in C. lia.
Qed.
Print Assumptions C85_expired_table_refuted.
