(** Theorems C40 and C71 to C75: Google Compute Engine firewalls (gce.py, gcp.py). *)
From Coq Require Import Lia Permutation.
From Verif Require Import SpecGce Samples BaseFacts PyStrFacts TextProofs CiscoProofs GceProofs GceDecide GceLimits GceNames.
From Verif Require Import PropsPolicy.
Local Open Scope string_scope.
Local Open Scope list_scope.
Local Open Scope Z_scope.

(** ** C71: the rules decide as the policy says *)

(** The rules of a header, on the network and in the direction it names, decide every packet
    as the first term in force that matches it, or as the cloud does when there is none.  The
    cloud picks rules by priority only, so terms that ask for different things must be ranked
    in the order of the policy.  Missing for the full claim: service accounts, and the terms of
    the refutations below. *)
Theorem C71_firewall_decides_as_policy_partial : forall order today before h gs after rules p v,
  gce_policy order today (before ++ (h, gs) :: after) = Ok rules ->
  (forall g, In g gs -> meant_for "gce" (g_term g) -> in_force today (g_term g) -> gce_term_ok (gce_options order (gh_options h)) g) ->
  well_ranked today gs -> own_firewall order before after (gce_options order (gh_options h)) -> gce_traffic (gce_options order (gh_options h)) p ->
  firewall_decides rules (gi_network (gce_options order (gh_options h))) (gi_direction (gce_options order (gh_options h))) p v <->
  policy_decides today (gi_direction (gce_options order (gh_options h))) gs p v.
Proof. exact gce_decides. Qed.
Print Assumptions C71_firewall_decides_as_policy_partial.

(** A firewall gives a packet one verdict. *)
Theorem C71_firewall_unique : forall rules network direction p v w,
  firewall_decides rules network direction p v -> firewall_decides rules network direction p w -> v = w.
Proof.
  intros rules network direction p v w [(r & n & I & N & S & P & A)|[A ->]] [(r' & n' & I' & N' & S' & P' & B)|[B ->]].
  - destruct (A r' w n' I' N' S' P') as [L|[E [Y|Y]]], (B r v n I N S P) as [L'|[E' [X|X]]]; try lia; congruence.
  - destruct (B r v I N S).
  - destruct (A r' w I' N' S').
  - reflexivity.
Qed.
Print Assumptions C71_firewall_unique.

Definition gterm (p : option json) (t : term) : gce_term := mkGceTerm t p [] [].
Definition gweb : gce_term := Eval vm_compute in gterm (Some (JStr "100")) (set_protocol ["tcp"] (set_destination_port [(80, 80); (443, 444)]
  (set_source_address [v4 10 0 0 0 8] (set_source_address_exclude [v4 10 128 0 0 9] (set_destination_tag ["web"] (set_comment ["web servers"] (accept "web"))))))).
Definition gold : gce_term := Eval vm_compute in gterm None (set_expiration (Some 100) (set_action ["deny"] (set_source_address [v4 10 0 0 0 8] (blank "old")))).
Definition gprobe : gce_term := Eval vm_compute in gterm (Some (JStr "200")) (set_protocol ["udp"; "icmp"]
  (set_source_address [v4 10 0 0 0 8; v6 db8 32] (set_source_tag ["lb"] (set_action ["deny"] (blank "probe"))))).
Definition grest : gce_term := Eval vm_compute in gterm None (set_action ["deny"] (blank "rest")).
Definition ghead : gce_header := mkGceHeader ["INGRESS"; "mixed"; "500"; "global/networks/default"] ["edge"].
Definition order1 : list string := ["inet"; "inet6"; "mixed"].
Definition gpkt (v : ver) (src dst : Z) (proto : string) (dport : Z) (stag dtag : string -> Prop) : packet :=
  mkPacket (v, src) (v, dst) proto 5000 dport "" 0 (fun _ => False)
    (fun _ => False) (fun _ => False) stag dtag
    "0" "" 0 64 100 64 "" "" "" "" "" "" "" (match v with V4 => "inet" | V6 => "inet6" end) "gce".
Ltac gno := intros; cbn in *; try contradiction; intuition (try discriminate; try congruence).
Ltac other_proto := let X := fresh in intros X; cbn [In] in X; repeat (destruct X as [X|X]; [discriminate X|]); destruct X.
Ltac gbasic := constructor;
  [eexists; reflexivity|split; reflexivity|reflexivity|reflexivity|discriminate
  |split; [gno|split; [discriminate|split; [discriminate|split; [discriminate|split; discriminate]]]]
  | | | | | |].
Ltac known := let q := fresh "q" in let I := fresh "I" in intros q I; cbn in I; repeat (destruct I as [<-|I]; [split; [apply str_in_spec; reflexivity|discriminate]|]); destruct I.
Ltac gports := let r := fresh "r" in let I := fresh "I" in intros r I; cbn in I; repeat (destruct I as [<-|I]; [cbn; lia|]); destruct I.
Ltac plain_side := split; [split; [valid_tac|split; [valid_tac|left; reflexivity]]|left; split; [reflexivity|let n := fresh "n" in let I := fresh "I" in intros n I; cbn in I;
  repeat (destruct I as [<-|I]; [first [discriminate|intros _; vm_compute; intuition (try discriminate; try congruence)]|]); destruct I]].
Lemma gweb_ok i : gce_term_ok i gweb.
Proof.
  gbasic; [known|gports| |plain_side|reflexivity|intros _ X; cbn in X; contradiction].
  split.
  - split; [valid_tac|]. split; [valid_tac|right]. split; [|split].
    + intros n m [<-|[]] [<-|[]]. reflexivity.
    + intros n m [<-|[]] [<-|[]]. reflexivity.
    + constructor; [constructor|constructor].
  - right. intros x (n & [<-|[]] & [E _]). discriminate E.
Qed.
Lemma gprobe_ok i : (forall v, In v (gce_families (gi_af i)) -> v = V4 \/ v = V6) -> gce_term_ok i gprobe.
Proof.
  intros V. gbasic; [known|gports|plain_side|plain_side|reflexivity|].
  intros _ _. right. intros v Iv. destruct (V v Iv) as [-> | ->].
  - exists (10 * 2 ^ 24 + 1). split; [|intros (n & [] & _)]. exists (v4 10 0 0 0 8). split; [left; reflexivity|]. split; [reflexivity|vm_compute; split; congruence].
  - exists (db8 * 2 ^ 96). split; [|intros (n & [] & _)]. exists (v6 db8 32). split; [right; left; reflexivity|]. split; [reflexivity|vm_compute; split; congruence].
Qed.
Lemma grest_ok i : gce_term_ok i grest.
Proof. gbasic; [known|gports|plain_side|plain_side|reflexivity|intros _ X; cbn in X; contradiction]. Qed.
Lemma ranked_two (P : Z -> Z -> gce_term -> gce_term -> Prop) (l : list (gce_term * option Z)) :
  (fix all (l : list (gce_term * option Z)) : Prop := match l with
    | [] => True | (g, o) :: r => (forall g' n n', o = Some n -> In (g', Some n') r -> P n n' g g') /\ all r end) l ->
  forall a g n b g' n' c, l = a ++ (g, Some n) :: b ++ (g', Some n') :: c -> P n n' g g'.
Proof.
  induction l as [|[g0 o] l IH]; intros H a g n b g' n' c E; [destruct a; discriminate E|]. destruct H as [H1 H2]. destruct a as [|x a]; cbn [app] in E.
  - apply (f_equal (fun l => match l with x :: r => (x, r) | [] => ((g0, o), []) end)) in E. apply pair_equal_spec in E. destruct E as [E1 E2]. apply pair_equal_spec in E1. destruct E1 as [-> ->].
    apply H1; [reflexivity|]. rewrite E2. apply in_or_app. right. left. reflexivity.
  - apply (f_equal (@tl _)) in E. cbn [tl] in E. exact (IH H2 _ _ _ _ _ _ _ E).
Qed.
Definition gmixed : gce_info := mkGceInfo "INGRESS" "mixed" (Some 500) "global/networks/default".
Lemma ghead_options : gce_options order1 (gh_options ghead) = gmixed.
Proof. vm_compute. reflexivity. Qed.
Definition gpolicy : list gce_term := [gweb; gold; gprobe; grest].
Definition tagged : string -> Prop := fun s => s = "web".
Definition gpkt4 : packet := gpkt V4 (10 * 2 ^ 24 + 1) 5 "tcp" 443 (fun _ => False) tagged.
Definition gpkt6 : packet := gpkt V6 (db8 * 2 ^ 96 + 1) 5 "udp" 53 (fun _ => False) tagged.
Lemma gpolicy_ok g : In g gpolicy -> meant_for "gce" (g_term g) -> in_force 200 (g_term g) -> gce_term_ok gmixed g.
Proof.
  intros [<-|[<-|[<-|[<-|[]]]]] _ F; [apply gweb_ok| |apply gprobe_ok|apply grest_ok].
  - specialize (F 100 eq_refl). discriminate F.
  - intros v [<-|[<-|[]]]; auto.
Qed.
Lemma gpolicy_ranks : ranked gpolicy = [(gweb, Some 100); (gold, Some 1000); (gprobe, Some 200); (grest, Some 65534)].
Proof. vm_compute. reflexivity. Qed.
Lemma gpolicy_ranked : well_ranked 200 gpolicy.
Proof.
  unfold well_ranked. rewrite gpolicy_ranks. split.
  - intros g o I. repeat (destruct I as [I|I]; [apply pair_equal_spec in I; destruct I as [_ <-]; eauto|]). destruct I.
  - apply (ranked_two (fun n n' g g' => in_force 200 (g_term g) -> in_force 200 (g_term g') -> t_action (g_term g) <> t_action (g_term g') -> n < n' \/ (n = n' /\ t_action (g_term g) = ["deny"]))).
    split; [|split; [|split; [|split]]]; try exact Logic.I; intros g' n n' En I; injection En as <-; cbn [In] in I;
      repeat (destruct I as [I|I]; [apply pair_equal_spec in I; destruct I as [<- I]; injection I as <-|]); try destruct I; intros F1 F2 D;
      try (specialize (F1 100 eq_refl); discriminate F1); try (specialize (F2 100 eq_refl); discriminate F2); try (left; reflexivity); try (exfalso; apply D; reflexivity).
Qed.
Lemma gpkt4_traffic : gce_traffic gmixed gpkt4.
Proof.
  split; [exists V4; split; [left; reflexivity|]|split; [apply str_in_spec; reflexivity|]].
  - split; [reflexivity|]. split; [reflexivity|]. split; [vm_compute; split; congruence|]. split; [vm_compute; split; congruence|]. other_proto.
  - split; [discriminate|]. split; [reflexivity|]. split; [right; intros []|]. intros s. cbn. unfold tagged. destruct (string_dec s "web"); auto.
Qed.
Lemma gpkt6_traffic : gce_traffic gmixed gpkt6.
Proof.
  split; [exists V6; split; [right; left; reflexivity|]|split; [apply str_in_spec; reflexivity|]].
  - split; [reflexivity|]. split; [reflexivity|]. split; [vm_compute; split; congruence|]. split; [vm_compute; split; congruence|]. other_proto.
  - split; [discriminate|]. split; [reflexivity|]. split; [right; intros []|]. intros s. cbn. unfold tagged. destruct (string_dec s "web"); auto.
Qed.
Lemma gweb_bare : bare (g_term gweb).
Proof. constructor; cbn; repeat split; auto. Qed.
Lemma gweb_matches : gce_matches "INGRESS" (g_term gweb) gpkt4.
Proof.
  exists (g_term gweb). split; [left; reflexivity|]. apply (bare_matches _ gpkt4 gweb_bare eq_refl).
  split; [split; [right; exists (v4 10 0 0 0 8); split; [left; reflexivity|split; [reflexivity|vm_compute; split; congruence]]|]|].
  { intros (n & [<-|[]] & [_ C]). revert C. vm_compute. intros [C _]. exact (C eq_refl). }
  split; [split; [left; reflexivity|intros (n & [] & _)]|]. split; [right; exists "tcp"; split; [left; reflexivity|reflexivity]|].
  split; [right; exists (443, 444); split; [right; left; reflexivity|vm_compute; split; congruence]|]. split; [left; reflexivity|right; exists "web"; split; [left; reflexivity|reflexivity]].
Qed.
(** A mixed policy with a priority for each term, on packets to and from tagged instances. *)
Example C71_example :
  exists rules, gce_policy order1 200 [(ghead, gpolicy)] = Ok rules /\ List.length rules = 5%nat /\ gce_options order1 (gh_options ghead) = gmixed /\
    (forall g, In g gpolicy -> meant_for "gce" (g_term g) -> in_force 200 (g_term g) -> gce_term_ok gmixed g) /\
    well_ranked 200 gpolicy /\ own_firewall order1 [] [] gmixed /\ gce_traffic gmixed gpkt4 /\ gce_traffic gmixed gpkt6 /\
    firewall_decides rules "global/networks/default" "INGRESS" gpkt4 "accept".
Proof.
  assert (X : match gce_policy order1 200 [(ghead, gpolicy)] with Ok l => List.length l | Raise _ => 0%nat end = 5%nat) by (vm_compute; reflexivity).
  destruct (gce_policy order1 200 [(ghead, gpolicy)]) as [rules|] eqn:E; [|discriminate X]. exists rules. split; [reflexivity|]. split; [exact X|]. clear X.
  split; [exact ghead_options|]. split; [exact gpolicy_ok|]. split; [exact gpolicy_ranked|]. split; [intros h' gs' []|]. split; [exact gpkt4_traffic|]. split; [exact gpkt6_traffic|].
  pose proof (C71_firewall_decides_as_policy_partial order1 200 [] ghead gpolicy [] rules gpkt4 "accept" E) as D. rewrite ghead_options in D.
  apply (D gpolicy_ok gpolicy_ranked (fun _ _ (I : In _ []) => match I with end) gpkt4_traffic).
  left. exists [], gweb, [gold; gprobe; grest]. split; [reflexivity|]. split; [|intros y a []]. split; [discriminate|]. split; [exact gweb_matches|reflexivity].
Qed.

(** *** Where the claim fails *)

Definition hin (af : string) : gce_header := mkGceHeader ["INGRESS"; af] ["edge"].
Definition any_tag : string -> Prop := fun s => s = "lb".
Ltac traffic v := split; [exists v; split; [cbn; auto|]; split; [reflexivity|]; split; [reflexivity|]; split; [vm_compute; split; congruence|]; split; [vm_compute; split; congruence|]; other_proto
  |split; [apply str_in_spec; reflexivity|]; split; [discriminate|]; split; [reflexivity|]; split; intros s; cbn; unfold any_tag; destruct (string_dec s "lb"); first [left; assumption|right; assumption]].
Ltac is_bare := constructor; cbn; repeat split; auto.
(** The first term of a policy decides. *)
Lemma first_decides today dir g gs p v : in_force today (g_term g) -> gce_matches dir (g_term g) p -> t_action (g_term g) = [v] -> policy_decides today dir (g :: gs) p v.
Proof. intros F M A. left. exists [], g, gs. split; [reflexivity|]. split; [auto|intros y a []]. Qed.
Definition inside (v : ver) (src dst : Z) (proto : string) : packet := gpkt v src dst proto 443 any_tag any_tag.

(** Terms without priorities get the same priority: a later term that denies wins. *)
Definition wide : gce_term := Eval vm_compute in gterm None (set_source_address [v4 10 0 0 0 8] (accept "wide")).
Definition narrow : gce_term := Eval vm_compute in gterm None (set_source_address [v4 10 0 0 0 16] (set_action ["deny"] (blank "narrow"))).
Theorem C71_order_of_terms_lost_refuted : exists h gs rules p, let i := gce_options order1 (gh_options h) in
  gce_policy order1 0 [(h, gs)] = Ok rules /\ (forall g, In g gs -> gce_term_ok i g) /\ gce_traffic i p /\
  policy_decides 0 (gi_direction i) gs p "accept" /\ firewall_decides rules (gi_network i) (gi_direction i) p "deny".
Proof.
  exists (hin "inet"), [wide; narrow]. eexists. exists (inside V4 (10 * 2 ^ 24 + 1) 5 "tcp"). intros i.
  split; [vm_compute; reflexivity|]. split.
  { intros g [<-|[<-|[]]]; (gbasic; [known|gports|plain_side|plain_side|reflexivity|intros _ X; cbn in X; contradiction]). }
  split; [traffic V4|]. split.
  - apply first_decides; [discriminate| |reflexivity]. eexists. split; [left; reflexivity|]. apply bare_matches; [is_bare|reflexivity|]. cbn.
    split; [split; [right; exists (v4 10 0 0 0 8); split; [left; reflexivity|split; [reflexivity|vm_compute; split; congruence]]|intros (n & [] & _)]|].
    split; [split; [left; reflexivity|intros (n & [] & _)]|]. split; [left; reflexivity|]. split; [left; reflexivity|]. split; left; reflexivity.
  - left. eexists. exists 1000. split; [right; left; reflexivity|]. split; [reflexivity|]. split.
    + split; [reflexivity|]. split; [right; left|split; [left; reflexivity|split; [left; reflexivity|]]].
      * eexists. eexists. split; [reflexivity|]. split; [left; reflexivity|]. change "10.0.0.0/16" with (prefixlen_text (v4 10 0 0 0 16)).
        apply range_text; [pose proof (Forall_inv (ltac:(valid_tac) : valid_list [v4 10 0 0 0 16])) as V; exact V|vm_compute; split; congruence|split; [reflexivity|vm_compute; split; congruence]].
      * exists "denied". eexists. eexists. split; [reflexivity|]. split; [reflexivity|]. split; [left; reflexivity|]. eexists. eexists. split; [reflexivity|]. split; [reflexivity|].
        split; [left; reflexivity|left; reflexivity].
    + split; [reflexivity|]. intros r' v' n' I _ _ Pr. right. split; [|left; reflexivity]. destruct I as [<-|[<-|[]]]; injection Pr as <-; reflexivity.
Qed.
Print Assumptions C71_order_of_terms_lost_refuted.

(** No rule is about anything: the packet is denied. *)
Lemma empty_denies network p : firewall_decides [] network "INGRESS" p "deny".
Proof. right. split; [intros r v []|reflexivity]. Qed.
Definition six_to_four : gce_term := Eval vm_compute in gterm None (set_source_address [v6 0x20020000 16] (accept "a")).
(** Addresses of IPv6 that stand for IPv4 ones (6to4) are left out without an error. *)
Theorem C71_ipv4_style_addresses_dropped_refuted : exists h gs rules p, let i := gce_options order1 (gh_options h) in
  gce_policy order1 0 [(h, gs)] = Ok rules /\ well_ranked 0 gs /\ gce_traffic i p /\
  policy_decides 0 (gi_direction i) gs p "accept" /\ firewall_decides rules (gi_network i) (gi_direction i) p "deny".
Proof.
  exists (hin "inet6"), [six_to_four], [], (inside V6 (0x20020000 * 2 ^ 96 + 1) 5 "tcp"). intros i.
  split; [vm_compute; reflexivity|]. split.
  { split; [intros g o [I|[]]; apply pair_equal_spec in I; destruct I as [_ <-]; eexists; reflexivity|].
    apply (ranked_two (fun n n' g g' => in_force 0 (g_term g) -> in_force 0 (g_term g') -> t_action (g_term g) <> t_action (g_term g') -> n < n' \/ (n = n' /\ t_action (g_term g) = ["deny"]))).
    split; [intros g' n n' _ []|exact Logic.I]. }
  split; [traffic V6|]. split; [|apply empty_denies].
  apply first_decides; [discriminate| |reflexivity]. eexists. split; [left; reflexivity|]. apply bare_matches; [is_bare|reflexivity|]. cbn -[Z.mul Z.add Z.pow].
  split; [split; [right; exists (v6 0x20020000 16); split; [left; reflexivity|split; [reflexivity|vm_compute; split; congruence]]|intros (n & [] & _)]|].
  split; [split; [left; reflexivity|intros (n & [] & _)]|]. split; [left; reflexivity|]. split; [left; reflexivity|]. split; left; reflexivity.
Qed.
Print Assumptions C71_ipv4_style_addresses_dropped_refuted.

Definition tag_ping : gce_term := Eval vm_compute in gterm None (set_source_tag ["lb"] (set_protocol ["icmpv6"] (accept "a"))).
(** A tag as the only source, and a protocol of IPv6: no rule in a mixed policy. *)
Theorem C71_icmpv6_from_tags_dropped_refuted : exists h gs rules p, let i := gce_options order1 (gh_options h) in
  gce_policy order1 0 [(h, gs)] = Ok rules /\ well_ranked 0 gs /\ gce_traffic i p /\
  policy_decides 0 (gi_direction i) gs p "accept" /\ firewall_decides rules (gi_network i) (gi_direction i) p "deny".
Proof.
  exists (hin "mixed"), [tag_ping], [], (inside V6 (db8 * 2 ^ 96 + 1) 5 "icmpv6"). intros i.
  split; [vm_compute; reflexivity|]. split.
  { split; [intros g o [I|[]]; apply pair_equal_spec in I; destruct I as [_ <-]; eexists; reflexivity|].
    apply (ranked_two (fun n n' g g' => in_force 0 (g_term g) -> in_force 0 (g_term g') -> t_action (g_term g) <> t_action (g_term g') -> n < n' \/ (n = n' /\ t_action (g_term g) = ["deny"]))).
    split; [intros g' n n' _ []|exact Logic.I]. }
  split; [traffic V6|]. split; [|apply empty_denies].
  apply first_decides; [discriminate| |reflexivity]. eexists. split; [left; reflexivity|]. apply bare_matches; [is_bare|reflexivity|]. cbn -[Z.mul Z.add Z.pow].
  split; [split; [left; reflexivity|intros (n & [] & _)]|]. split; [split; [left; reflexivity|intros (n & [] & _)]|].
  split; [right; exists "icmpv6"; split; [left; reflexivity|reflexivity]|]. split; [left; reflexivity|]. split; [right; exists "lb"; split; [left; reflexivity|reflexivity]|left; reflexivity].
Qed.
Print Assumptions C71_icmpv6_from_tags_dropped_refuted.

(** Excluded destinations of incoming traffic are accepted all the same. *)
Definition but_dst : gce_term := Eval vm_compute in gterm None (set_source_address [v4 10 0 0 0 8] (set_destination_address_exclude [v4 10 2 0 0 16] (accept "a"))).
Theorem C71_destination_exclude_ignored_refuted : exists h gs rules p, let i := gce_options order1 (gh_options h) in
  gce_policy order1 0 [(h, gs)] = Ok rules /\ well_ranked 0 gs /\ gce_traffic i p /\
  policy_decides 0 (gi_direction i) gs p "deny" /\ firewall_decides rules (gi_network i) (gi_direction i) p "accept".
Proof.
  exists (hin "inet"), [but_dst]. eexists. exists (inside V4 (10 * 2 ^ 24 + 1) (10 * 2 ^ 24 + 2 * 2 ^ 16) "tcp"). intros i.
  split; [vm_compute; reflexivity|]. split.
  { split; [intros g o [I|[]]; apply pair_equal_spec in I; destruct I as [_ <-]; eexists; reflexivity|].
    apply (ranked_two (fun n n' g g' => in_force 0 (g_term g) -> in_force 0 (g_term g') -> t_action (g_term g) <> t_action (g_term g') -> n < n' \/ (n = n' /\ t_action (g_term g) = ["deny"]))).
    split; [intros g' n n' _ []|exact Logic.I]. }
  split; [traffic V4|]. split.
  - right. split; [|reflexivity]. intros g [<-|[]] _ (t' & [<-|[]] & M). apply bare_matches in M; [|is_bare|reflexivity].
    destruct M as (_ & (_ & M) & _). apply M. exists (v4 10 2 0 0 16). split; [left; reflexivity|split; [reflexivity|vm_compute; split; congruence]].
  - left. eexists. exists 1000. split; [left; reflexivity|]. split; [reflexivity|]. split.
    + split; [reflexivity|]. split; [right; left|split; [left; reflexivity|split; [left; reflexivity|]]].
      * eexists. eexists. split; [reflexivity|]. split; [left; reflexivity|]. change "10.0.0.0/8" with (prefixlen_text (v4 10 0 0 0 8)).
        apply range_text; [pose proof (Forall_inv (ltac:(valid_tac) : valid_list [v4 10 0 0 0 8])) as V; exact V|vm_compute; split; congruence|split; [reflexivity|vm_compute; split; congruence]].
      * exists "allowed". eexists. eexists. split; [reflexivity|]. split; [reflexivity|]. split; [left; reflexivity|]. eexists. eexists. split; [reflexivity|]. split; [reflexivity|].
        split; [left; reflexivity|left; reflexivity].
    + split; [reflexivity|]. intros r' v' n' [<-|[]] _ Sy Pr. right. split; [injection Pr as <-; reflexivity|]. right.
      destruct Sy as (_ & _ & _ & _ & key & l & e & K & L & _). unfold verdict_key in K. destruct (String.eqb_spec v' "accept") as [E|E]; [exact E|].
      destruct (String.eqb v' "deny"); [|discriminate K]. injection K as <-. discriminate L.
Qed.
Print Assumptions C71_destination_exclude_ignored_refuted.

(** ** C72: limits of the cloud *)

(** Every rule respects the limits: 63 characters of name, 2047 of description, 256 ranges on one
    side only, 30 source and 70 target tags, 10 accounts and never accounts beside tags, 256
    ports; and it allows or denies something, not both. *)
Theorem C72_rules_within_limits : forall order today fs rules r,
  gce_policy order today fs = Ok rules -> In r rules -> within_limits r.
Proof. exact gce_limits. Qed.
Print Assumptions C72_rules_within_limits.

(** With a maximum in the first header, and every maximum stated at most N, the attributes of
    all rules together are at most N. *)
Theorem C72_quota_kept : forall order today N h gs fs rules,
  gce_policy order today ((h, gs) :: fs) = Ok rules -> gi_max (gce_options order (gh_options h)) <> None ->
  (forall h' gs' n, In (h', gs') ((h, gs) :: fs) -> gi_max (gce_options order (gh_options h')) = Some n -> 0 < n <= N) ->
  total_size rules <= N.
Proof. exact gce_quota. Qed.
Print Assumptions C72_quota_kept.

Definition nets (n : nat) : list net := map (fun k => plain V4 (167772160 + 512 * Z.of_nat k) 24) (seq 0 n).
Definition gmany : gce_term := gterm None (set_protocol ["tcp"] (set_destination_port [(22, 22)] (set_source_address (nets 300) (accept "many")))).
(** 300 ranges take two rules, the attributes of which are 300 ranges, and twice a protocol and a port. *)
Example C72_example : exists rules, gce_policy order1 0 [(mkGceHeader ["304"] [], [gmany])] = Ok rules /\ map name_of rules = [Some (JStr "many-1"); Some (JStr "many-2")] /\
  total_size rules = 304 /\ gce_policy order1 0 [(mkGceHeader ["303"] [], [gmany])] = Raise (Exn "ExceededAttributeCountError") /\
  gi_max (gce_options order1 ["304"]) = Some 304.
Proof. eexists. split; [vm_compute; reflexivity|]. repeat split; vm_compute; reflexivity. Qed.

(** A later header may state a larger maximum, or none: the first one then limits only its own
    rules, or all. *)
Theorem C72_first_quota_exceeded_refuted : exists fs rules h gs n, gce_policy order1 0 fs = Ok rules /\
  nth_error fs 0 = Some (h, gs) /\ gi_max (gce_options order1 (gh_options h)) = Some n /\ n < total_size rules.
Proof.
  exists [(mkGceHeader ["304"] [], [gmany]); (mkGceHeader ["1000"; "EGRESS"] [], [gterm None (set_destination_address [v4 10 0 0 0 8] (accept "out"))])].
  eexists. eexists. eexists. exists 304. split; [vm_compute; reflexivity|]. split; [reflexivity|]. split; vm_compute; reflexivity.
Qed.
Print Assumptions C72_first_quota_exceeded_refuted.

(** ** C73: names of rules *)

(** Within a header no two rules have the same name, unless the name of a term is that of
    another one with something behind a dash.  Missing for the full claim: such names, and
    several headers. *)
Theorem C73_names_unique_partial : forall order today h gs rules, gce_policy order today [(h, gs)] = Ok rules ->
  (forall g g', In g gs -> In g' gs -> ~ extends (t_name (g_term g')) (t_name (g_term g))) -> NoDup (map name_of rules).
Proof. exact gce_names_unique. Qed.
Print Assumptions C73_names_unique_partial.

Lemma not_extends a b : (forall s, a <> append b (append "-" s)) -> ~ extends a b.
Proof. intros H (s & E). exact (H s E). Qed.
Example C73_example : exists rules, gce_policy order1 200 [(ghead, [gweb; gold; gprobe; gmany; grest])] = Ok rules /\
  map name_of rules = map (fun s => Some (JStr s)) ["default-web"; "default-probe"; "default-probe-v6"; "default-many-1"; "default-many-2"; "default-rest"; "default-rest-v6"] /\
  (forall g g', In g [gweb; gold; gprobe; gmany; grest] -> In g' [gweb; gold; gprobe; gmany; grest] -> ~ extends (t_name (g_term g')) (t_name (g_term g))).
Proof.
  eexists. split; [vm_compute; reflexivity|]. split; [reflexivity|].
  intros g g' [<-|[<-|[<-|[<-|[<-|[]]]]]] [<-|[<-|[<-|[<-|[<-|[]]]]]]; intros (s & E); discriminate E.
Qed.

(** The rule of a term for IPv6 takes the name of another term. *)
Theorem C73_names_clash_refuted : exists h gs rules, gce_policy order1 0 [(h, gs)] = Ok rules /\
  NoDup (map (fun g => t_name (g_term g)) gs) /\ ~ NoDup (map name_of rules).
Proof.
  exists (hin "mixed"), [gterm None (set_source_address [v4 10 0 0 0 8; v6 db8 32] (accept "a")); gterm None (set_source_address [v4 10 0 0 0 8; v6 db8 32] (accept "a-v6"))].
  eexists. split; [vm_compute; reflexivity|]. split.
  - repeat constructor; cbn; intuition discriminate.
  - intros N. cbn in N. inversion N as [|x l _ N1 E]; subst. inversion N1 as [|y l2 N2 _ E2]; subst. apply N2. left. reflexivity.
Qed.
Print Assumptions C73_names_clash_refuted.

(** ** C74: descriptions *)

(** The description of every rule is the comment of a term in force whose name is part of the
    rule's, or that of the header, and the owner of the term.  Missing for the full claim: owners
    of terms without comment, or in mixed policies. *)
Theorem C74_described_partial : forall order today h gs rules r, gce_policy order today [(h, gs)] = Ok rules ->
  (forall g, In g gs -> t_owner (g_term g) = None \/ (t_comment (g_term g) <> [] /\ gi_af (gce_options order (gh_options h)) <> "mixed")) -> In r rules ->
  exists g, In g gs /\ in_force today (g_term g) /\ assoc "description" r = Some (JStr (described h (g_term g))) /\
    exists s pre, name_of r = Some (JStr s) /\ (s = append pre (t_name (g_term g)) \/ extends s (append pre (t_name (g_term g)))) /\
      (gi_network (gce_options order (gh_options h)) = "" -> pre = "").
Proof. exact gce_described. Qed.
Print Assumptions C74_described_partial.

Definition gowned : gce_term := Eval vm_compute in gterm None (set_source_address [v4 10 0 0 0 8] (set_owner (Some "joe") (set_comment ["front"; "end"] (accept "a")))).
Example C74_example : exists rules, gce_policy order1 0 [(hin "inet", [gowned; wide])] = Ok rules /\
  map (assoc "description") rules = [Some (JStr "front end Owner: joe"); Some (JStr "edge")] /\
  (forall g, In g [gowned; wide] -> t_owner (g_term g) = None \/ (t_comment (g_term g) <> [] /\ gi_af (gce_options order1 (gh_options (hin "inet"))) <> "mixed")).
Proof.
  eexists. split; [vm_compute; reflexivity|]. split; [reflexivity|]. intros g [<-|[<-|[]]]; [right; split; discriminate|left; reflexivity].
Qed.

(** The owner of a term without comment is also named for every later term without comment. *)
Theorem C74_owner_of_another_term_refuted : exists h a b rules r, gce_policy order1 0 [(h, [a; b])] = Ok rules /\ In r rules /\
  name_of r = Some (JStr (t_name (g_term b))) /\ t_owner (g_term b) = None /\ t_owner (g_term a) = Some "joe" /\
  assoc "description" r = Some (JStr "edge Owner: joe").
Proof.
  exists (hin "inet"), (gterm None (set_source_address [v4 10 0 0 0 8] (set_owner (Some "joe") (accept "a")))), wide. eexists. eexists.
  split; [vm_compute; reflexivity|]. split; [right; left; reflexivity|]. repeat split.
Qed.
Print Assumptions C74_owner_of_another_term_refuted.

(** ** C40: expired terms *)

(** A policy without its expired terms gives the same rules, as long as a term is left under
    each header. *)
Theorem C40_gce_expired_dropped : forall order today fs rules, gce_policy order today fs = Ok rules ->
  (forall h gs, In (h, gs) fs -> exists g, In g gs /\ in_force today (g_term g)) ->
  gce_policy order today (map (fun f => (fst f, filter (fun g => valid_on today (g_term g)) (snd f))) fs) = Ok rules.
Proof. exact gce_expired. Qed.
Print Assumptions C40_gce_expired_dropped.

Example C40_gce_example : exists rules, gce_policy order1 200 [(ghead, [gweb; gold; gprobe; grest])] = Ok rules /\
  filter (fun g => valid_on 200 (g_term g)) [gweb; gold; gprobe; grest] = [gweb; gprobe; grest] /\ rules <> [].
Proof. eexists. split; [vm_compute; reflexivity|]. split; [reflexivity|discriminate]. Qed.

(** ** C75: the same rules in every run *)

(** Python does not fix the order in which it walks the set of address families.  It does not
    matter when the options of each header name at most one of them. *)
Lemma pick_none opts : forall order d, (forall a, In a order -> ~ In a opts) -> pick order d opts = (d, opts).
Proof.
  unfold pick. induction order as [|a order IH]; intros d H; [reflexivity|]. cbn [fold_left snd]. destruct (str_in a opts) eqn:E.
  - apply str_in_spec in E. destruct (H a (or_introl eq_refl) E).
  - apply IH. intros b I. apply H. right. exact I.
Qed.
Lemma remove_in x y : forall l, In y (remove_first x l) -> In y l.
Proof. induction l as [|z l IH]; [auto|]. cbn [remove_first]. destruct (String.eqb x z); intros I; [right; exact I|]. destruct I as [<-|I]; [left; reflexivity|right; exact (IH I)]. Qed.
Lemma pick_one opts x : In x opts -> forall order d, NoDup order -> In x order -> (forall a, In a order -> In a opts -> a = x) -> pick order d opts = (x, remove_first x opts).
Proof.
  intros X. induction order as [|a order IH]; intros d N I H; [destruct I|]. inversion N as [|? ? Na N']; subst. unfold pick. cbn [fold_left snd].
  destruct (str_in a opts) eqn:E.
  - apply str_in_spec in E. assert (a = x) by (apply H; [left; reflexivity|exact E]). subst a.
    apply (pick_none (remove_first x opts) order x). intros b Ib Y. apply remove_in in Y. assert (b = x) by (apply H; [right; exact Ib|exact Y]). subst b. contradiction.
  - apply (IH d N'); [destruct I as [->|I]; [|exact I]; apply str_in_spec in X; congruence|]. intros b Ib. apply H. right. exact Ib.
Qed.
Lemma pick_walk order order' d opts : walk order -> walk order' -> (forall a b, In a order -> In b order -> In a opts -> In b opts -> a = b) -> pick order d opts = pick order' d opts.
Proof.
  intros W W' H. assert (N : NoDup ["inet"; "inet6"; "mixed"]) by (repeat constructor; cbn; intuition discriminate).
  assert (P : Permutation order order') by (exact (Permutation_trans W (Permutation_sym W'))).
  assert (N1 : NoDup order) by exact (Permutation_NoDup (Permutation_sym W) N). assert (N2 : NoDup order') by exact (Permutation_NoDup (Permutation_sym W') N).
  destruct (existsb (fun a => str_in a opts) order) eqn:E.
  - apply existsb_exists in E. destruct E as (x & I & X). apply str_in_spec in X.
    rewrite (pick_one opts x X order d N1 I), (pick_one opts x X order' d N2 (Permutation_in _ P I)); [reflexivity| |];
      intros a A Oa; apply H; auto. exact (Permutation_in _ (Permutation_sym P) A).
  - assert (Z : forall a, In a order -> ~ In a opts).
    { intros a A Oa. assert (Y : existsb (fun a => str_in a opts) order = true) by (apply existsb_exists; exists a; split; [exact A|apply str_in_spec; exact Oa]). congruence. }
    rewrite !pick_none; [reflexivity| |exact Z]. intros a A. apply Z. exact (Permutation_in _ (Permutation_sym P) A).
Qed.
Lemma pick_left order d opts y : In y (snd (pick order d opts)) -> In y opts.
Proof.
  unfold pick. revert d opts. induction order as [|a order IH]; intros d opts I; [exact I|]. cbn [fold_left snd] in I. destruct (str_in a opts); [apply IH in I; exact (remove_in _ _ _ I)|exact (IH _ _ I)].
Qed.
Definition one_family_named (h : gce_header) : Prop :=
  forall a b, In a ["inet"; "inet6"; "mixed"] -> In b ["inet"; "inet6"; "mixed"] -> In a (gh_options h) -> In b (gh_options h) -> a = b.
Lemma options_walk order order' h : walk order -> walk order' -> one_family_named h -> gce_options order (gh_options h) = gce_options order' (gh_options h).
Proof.
  intros W W' H. unfold gce_options. destruct (pick ["INGRESS"; "EGRESS"] "INGRESS" (gh_options h)) as [dir o] eqn:E.
  assert (L : forall y, In y o -> In y (gh_options h)) by (intros y I; apply (pick_left ["INGRESS"; "EGRESS"] "INGRESS"); rewrite E; exact I).
  rewrite (pick_walk order order' "inet" o W W'); [reflexivity|].
  intros a b A B Oa Ob. apply H; [exact (Permutation_in _ W A)|exact (Permutation_in _ W B)|exact (L _ Oa)|exact (L _ Ob)].
Qed.
Theorem C75_same_rules_every_run_partial : forall order order' today fs, walk order -> walk order' ->
  (forall h gs, In (h, gs) fs -> one_family_named h) -> gce_policy order today fs = gce_policy order' today fs.
Proof.
  intros order order' today fs W W' H. unfold gce_policy. destruct (check_tokens _ _ _); [|reflexivity]. cbn [bind]. generalize 0 at 1 3. generalize 0.
  induction fs as [|[h gs] fs IH]; intros count mx; [reflexivity|]. cbn [gce_translate]. rewrite (options_walk order order' h W W' (H h gs (or_introl eq_refl))).
  destruct (negb (some gs)); [reflexivity|]. match goal with |- bind ?m _ = _ => destruct m as [r|]; [|reflexivity] end. cbn [bind].
  rewrite (IH (fun h' gs' I => H h' gs' (or_intror I))). reflexivity.
Qed.
Print Assumptions C75_same_rules_every_run_partial.

Example C75_example : walk order1 /\ walk ["mixed"; "inet"; "inet6"] /\ one_family_named ghead.
Proof.
  split; [apply Permutation_refl|]. split; [apply (Permutation_cons_app ["inet"; "inet6"] []), Permutation_refl|].
  intros a b A B [<-|[<-|[<-|[<-|[]]]]] [<-|[<-|[<-|[<-|[]]]]]; try reflexivity; cbn in A, B; intuition discriminate.
Qed.

(** With two families in the options the rules depend on the run. *)
Theorem C75_runs_differ_refuted : exists order order' fs rules rules', walk order /\ walk order' /\
  gce_policy order 0 fs = Ok rules /\ gce_policy order' 0 fs = Ok rules' /\ rules = [] /\ rules' <> [].
Proof.
  exists ["inet"; "inet6"; "mixed"], ["inet"; "mixed"; "inet6"], [(mkGceHeader ["mixed"; "inet6"] [], [tag_ping])].
  eexists. eexists. split; [apply Permutation_refl|]. split; [apply perm_skip, perm_swap|]. split; [vm_compute; reflexivity|]. split; [vm_compute; reflexivity|]. split; [reflexivity|discriminate].
Qed.
Print Assumptions C75_runs_differ_refuted.
