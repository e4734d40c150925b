(** Theorems C90: firewalls declared to Terraform (gce_vpc_tf.py). *)
From Coq Require Import Lia.
From Verif Require Import Samples BaseFacts PyStrFacts TextProofs CiscoProofs GceProofs GceDecide TfDecide TfNumbers.
From Verif Require Import PropsPolicy PropsGce SpecTf.
Local Open Scope string_scope.
Local Open Scope list_scope.
Local Open Scope Z_scope.

(** ** C90: the declared firewall decides as the policy says *)

(** The rules declared for a header, on the network and in the direction it names, decide every
    packet as the first term in force that matches it, or as the cloud does when there is none.
    Unlike in C71 the order of the terms is enough: rules are numbered in that order.  Missing
    for the full claim: service accounts, terms with tags only that state a priority (refuted
    below), and the terms of the refutations of C71. *)
Theorem C90_terraform_decides_as_policy_partial : forall order today before h gs after out p v,
  tf_policy order today (before ++ (h, gs) :: after) = Ok out ->
  (forall g, In g gs -> meant_for "gce_vpc_tf" (g_term g) -> in_force today (g_term g) ->
     gce_term_ok (gce_options order (gh_options h)) g /\ no_own_priority g) ->
  own_firewall order before after (gce_options order (gh_options h)) -> tf_traffic (gce_options order (gh_options h)) p ->
  tf_decides out (gi_network (gce_options order (gh_options h))) (gi_direction (gce_options order (gh_options h))) p v <->
  policy_decides today (gi_direction (gce_options order (gh_options h))) gs p v.
Proof. exact tf_decides_as_policy. Qed.
Print Assumptions C90_terraform_decides_as_policy_partial.

(** A declared firewall gives a packet one verdict. *)
Theorem C90_firewall_unique : forall out network direction p v w,
  tf_decides out network direction p v -> tf_decides out network direction p w -> v = w.
Proof. exact tf_unique. Qed.
Print Assumptions C90_firewall_unique.

(** When no term states a priority the declared rules are numbered 1, 2, 3, ... over all headers. *)
Theorem C90_numbered_in_order : forall order today fs out, tf_policy order today fs = Ok out ->
  (forall h gs g, In (h, gs) fs -> In g gs -> g_priority g = None) ->
  exists rules, (forall r, (exists name, declares out name r) <-> In r rules) /\
    forall k r, nth_error rules k = Some r -> rule_priority r = Some (1 + Z.of_nat k).
Proof. exact tf_numbers. Qed.
Print Assumptions C90_numbered_in_order.

Definition tpkt (v : ver) (src dst : Z) (proto : string) (dport : Z) (stag dtag : string -> Prop) : packet :=
  mkPacket (v, src) (v, dst) proto 5000 dport "" 0 (fun _ => False)
    (fun _ => False) (fun _ => False) stag dtag
    "0" "" 0 64 100 64 "" "" "" "" "" "" "" (match v with V4 => "inet" | V6 => "inet6" end) "gce_vpc_tf".
Definition tpkt4 : packet := tpkt V4 (10 * 2 ^ 24 + 1) 5 "tcp" 443 (fun _ => False) tagged.
Lemma tpkt4_traffic : tf_traffic gmixed tpkt4.
Proof.
  split; [exists V4; split; [left; reflexivity|]|split; [apply str_in_spec; reflexivity|]].
  - split; [reflexivity|]. split; [reflexivity|]. split; [vm_compute; split; congruence|]. split; [vm_compute; split; congruence|]. other_proto.
  - split; [discriminate|]. split; [reflexivity|]. split; [right; intros []|]. intros s. cbn. unfold tagged. destruct (string_dec s "web"); auto.
Qed.
Lemma tpolicy_ok g : In g gpolicy -> meant_for "gce_vpc_tf" (g_term g) -> in_force 200 (g_term g) -> gce_term_ok gmixed g /\ no_own_priority g.
Proof.
  intros [<-|[<-|[<-|[<-|[]]]]] _ F.
  - split; [apply gweb_ok|right; left; discriminate].
  - specialize (F 100 eq_refl). discriminate F.
  - split; [apply gprobe_ok; intros v [<-|[<-|[]]]; auto|right; left; discriminate].
  - split; [apply grest_ok|left; reflexivity].
Qed.
Lemma tweb_matches : gce_matches "INGRESS" (g_term gweb) tpkt4.
Proof. apply (clear_gce_matches "gce_vpc_tf"); [split; [left; reflexivity|intros []]|reflexivity|]. exact gweb_matches. Qed.
(** The policy of C71_example. *)
Example C90_example : exists out, tf_policy order1 200 [(ghead, gpolicy)] = Ok out /\ gce_options order1 (gh_options ghead) = gmixed /\
  (forall g, In g gpolicy -> meant_for "gce_vpc_tf" (g_term g) -> in_force 200 (g_term g) -> gce_term_ok gmixed g /\ no_own_priority g) /\
  own_firewall order1 [] [] gmixed /\ tf_traffic gmixed tpkt4 /\ tf_decides out "global/networks/default" "INGRESS" tpkt4 "accept".
Proof.
  assert (X : match tf_policy order1 200 [(ghead, gpolicy)] with Ok _ => true | Raise _ => false end = true) by (vm_compute; reflexivity).
  destruct (tf_policy order1 200 [(ghead, gpolicy)]) as [out|] eqn:E; [|discriminate X]. exists out. split; [reflexivity|]. clear X.
  split; [exact ghead_options|]. split; [exact tpolicy_ok|]. split; [intros h' gs' []|]. split; [exact tpkt4_traffic|].
  pose proof (C90_terraform_decides_as_policy_partial order1 200 [] ghead gpolicy [] out tpkt4 "accept" E) as D. rewrite ghead_options in D.
  apply (D tpolicy_ok (fun _ _ (I : In _ []) => match I with end) tpkt4_traffic).
  left. exists [], gweb, [gold; gprobe; grest]. split; [reflexivity|]. split; [|intros y a []]. split; [discriminate|]. split; [exact tweb_matches|reflexivity].
Qed.
Definition tin (af : string) : gce_header := mkGceHeader ["INGRESS"; af; "global/networks/default"] ["edge"].
(** Two headers without priorities, and terms with one rule, two rules for two families, and two
    rules for 300 ranges. *)
Definition tnumbered : list (gce_header * list gce_term) :=
  [(tin "mixed", [gterm None (set_source_address [v4 10 0 0 0 8; v6 db8 32] (accept "a")); gmany]); (mkGceHeader ["EGRESS"; "global/networks/default"] [], [gterm None (set_destination_address [v4 10 0 0 0 8] (accept "out"))])].
Definition tdecls (out : json) : list (string * option Z) :=
  match out with
  | JDict [(_, JDict [(_, JList l)])] =>
    flat_map (fun b => match b with JDict d => map (fun e => (fst e, match snd e with JDict r => rule_priority r | _ => None end)) d | _ => [] end) l
  | _ => []
  end.
Example C90_numbered_example : exists out, tf_policy order1 0 tnumbered = Ok out /\
  (forall h gs g, In (h, gs) tnumbered -> In g gs -> g_priority g = None) /\
  tdecls out = [("default-a", Some 1); ("default-a-v6", Some 2); ("default-many-1", Some 3); ("default-many-2", Some 4); ("default-out-e", Some 5)].
Proof.
  eexists. split; [vm_compute; reflexivity|]. split; [|vm_compute; reflexivity].
  intros h gs g [E|[E|[]]] I; apply pair_equal_spec in E; destruct E as [_ <-]; repeat (destruct I as [<-|I]; [reflexivity|]); destruct I.
Qed.

(** *** Where the claim fails *)

(** The priority that a term states is not used beside addresses. *)
Definition seven : gce_term := Eval vm_compute in gterm (Some (JStr "7")) (set_source_address [v4 10 0 0 0 8] (accept "web")).
Theorem C90_stated_priority_ignored_refuted : exists h out name r, tf_policy order1 0 [(h, [seven])] = Ok out /\ g_priority seven = Some (JStr "7") /\
  declares out name r /\ rule_priority r = Some 1.
Proof.
  exists (tin "inet"). eexists. exists "default-web". eexists. split; [vm_compute; reflexivity|]. split; [reflexivity|]. split; [|shelve].
  eexists. eexists. eexists. eexists. split; [reflexivity|]. split; [reflexivity|]. split; [reflexivity|]. split; [left; reflexivity|reflexivity].
  Unshelve. reflexivity.
Qed.
Print Assumptions C90_stated_priority_ignored_refuted.

(** It is used where a term has tags only, beside numbers counted from 1: the later term wins
    although both state priorities in the order of the policy. *)
Definition from_lb : gce_term := Eval vm_compute in gterm (Some (JStr "100")) (set_source_tag ["lb"] (accept "lb")).
Definition not_ten : gce_term := Eval vm_compute in gterm (Some (JStr "200")) (set_source_address [v4 10 0 0 0 8] (set_action ["deny"] (blank "ten"))).
Definition tinside : packet := tpkt V4 (10 * 2 ^ 24 + 1) 5 "tcp" 443 any_tag any_tag.
Lemma tinside_traffic : tf_traffic (gce_options order1 (gh_options (tin "inet"))) tinside.
Proof.
  split; [exists V4; split; [left; reflexivity|]|split; [apply str_in_spec; reflexivity|]].
  - split; [reflexivity|]. split; [reflexivity|]. split; [vm_compute; split; congruence|]. split; [vm_compute; split; congruence|]. other_proto.
  - split; [discriminate|]. split; [reflexivity|]. split; intros s; cbn; unfold any_tag; destruct (string_dec s "lb"); auto.
Qed.
Lemma tdeclares out l name r : out = JDict [("resource", JDict [("google_compute_firewall", JList l)])] -> (declares out name r <-> exists d, In (JDict d) l /\ assoc name d = Some (JDict r)).
Proof.
  intros ->. split.
  - intros (top & kinds & blocks & d & E1 & E2 & E3 & E4 & E5). injection E1 as <-. injection E2 as <-. injection E3 as <-. eauto.
  - intros (d & I & A). eexists. eexists. eexists. exists d. split; [reflexivity|]. split; [reflexivity|]. split; [reflexivity|]. auto.
Qed.
Theorem C90_stated_priority_reorders_refuted : exists h gs out p, let i := gce_options order1 (gh_options h) in
  tf_policy order1 0 [(h, gs)] = Ok out /\ (forall g, In g gs -> gce_term_ok i g) /\ well_ranked 0 gs /\ tf_traffic i p /\
  policy_decides 0 (gi_direction i) gs p "accept" /\ tf_decides out (gi_network i) (gi_direction i) p "deny".
Proof.
  exists (tin "inet"), [from_lb; not_ten]. eexists. exists tinside. intros i.
  split; [vm_compute; reflexivity|]. split.
  { intros g [<-|[<-|[]]]; (gbasic; [known|gports|plain_side|plain_side|reflexivity|intros _ X; cbn in X; try contradiction]).
    left. split; [reflexivity|intros _ []]. }
  split.
  { split; [intros g o [I|[I|[]]]; apply pair_equal_spec in I; destruct I as [_ <-]; eexists; reflexivity|].
    apply (ranked_two (fun n n' g g' => in_force 0 (g_term g) -> in_force 0 (g_term g') -> t_action (g_term g) <> t_action (g_term g') -> n < n' \/ (n = n' /\ t_action (g_term g) = ["deny"]))).
    split; [|split; [intros g' n n' _ []|exact Logic.I]]. intros g' n n' E [I|[]] _ _ _. vm_compute in E. apply pair_equal_spec in I. destruct I as [_ I]. injection E as <-. vm_compute in I. injection I as <-. left. reflexivity. }
  split; [exact tinside_traffic|]. split.
  - apply first_decides; [discriminate| |reflexivity]. apply (clear_gce_matches "gce_vpc_tf"); [split; [left; reflexivity|intros []]|reflexivity|].
    eexists. split; [left; reflexivity|]. apply bare_matches; [is_bare|reflexivity|]. cbn.
    split; [split; [left; reflexivity|intros (n & [] & _)]|]. split; [split; [left; reflexivity|intros (n & [] & _)]|]. split; [left; reflexivity|]. split; [left; reflexivity|].
    split; [right; exists "lb"; split; [left; reflexivity|reflexivity]|left; reflexivity].
  - left. exists "default-ten". eexists. exists 2. split.
    { apply (tdeclares _ _ _ _ eq_refl). eexists. split; [right; left; reflexivity|reflexivity]. }
    split; [reflexivity|]. split.
    + split; [reflexivity|]. split; [right; left|split; [left; reflexivity|split; [left; reflexivity|]]].
      * eexists. eexists. split; [reflexivity|]. split; [left; reflexivity|]. change "10.0.0.0/8" with (prefixlen_text (v4 10 0 0 0 8)).
        apply GceProofs.range_text; [pose proof (Forall_inv (ltac:(valid_tac) : valid_list [v4 10 0 0 0 8])) as V; exact V|vm_compute; split; congruence|split; [reflexivity|vm_compute; split; congruence]].
      * exists "deny". eexists. eexists. split; [reflexivity|]. split; [reflexivity|]. split; [left; reflexivity|]. eexists. eexists. split; [reflexivity|]. split; [reflexivity|].
        split; [left; reflexivity|left; reflexivity].
    + split; [reflexivity|]. intros name' r' v' n' De _ Sy Nv Pr. left. apply (tdeclares _ _ _ _ eq_refl) in De. destruct De as (d & [D|[D|[]]] & A); injection D as <-.
      * cbn [assoc] in A. destruct (String.eqb _ _) in A; [|discriminate A]. injection A as <-. injection Pr as <-. reflexivity.
      * cbn [assoc] in A. destruct (String.eqb _ _) in A; [|discriminate A]. injection A as <-. exfalso. apply Nv.
        destruct Sy as (_ & _ & _ & _ & key & l & e & K & L & _). unfold tf_verdict_key in K. destruct (String.eqb_spec v' "accept") as [E|E]; [injection K as <-; discriminate L|].
        destruct (String.eqb_spec v' "deny") as [E'|E']; [exact E'|discriminate K].
Qed.
Print Assumptions C90_stated_priority_reorders_refuted.

(** Descriptions are not cut to what the cloud accepts. *)
Fixpoint long_text (n : nat) : string := match n with O => "" | S n => String "x" (long_text n) end.
Theorem C90_description_not_cut_refuted : exists h gs out name r s, tf_policy order1 0 [(h, gs)] = Ok out /\ declares out name r /\
  assoc "description" r = Some (JStr s) /\ (String.length s > 2047)%nat.
Proof.
  exists (tin "inet"), [gterm None (set_comment [long_text 2048] (set_source_address [v4 10 0 0 0 8] (accept "web")))]. eexists. exists "default-web". eexists. exists (long_text 2048).
  split; [vm_compute; reflexivity|]. split.
  { apply (tdeclares _ _ _ _ eq_refl). eexists. split; [left; reflexivity|reflexivity]. }
  split; [reflexivity|]. apply Nat.ltb_lt. vm_compute. reflexivity.
Qed.
Print Assumptions C90_description_not_cut_refuted.

(** Two headers may declare two rules under one name, which Terraform refuses. *)
Theorem C90_name_declared_twice_refuted : exists fs out name r r', tf_policy order1 0 fs = Ok out /\ declares out name r /\ declares out name r' /\ r <> r'.
Proof.
  exists [(tin "inet", [wide]); (tin "inet", [gterm None (set_source_address [v4 10 9 0 0 16] (accept "wide"))])]. eexists. exists "default-wide". eexists. eexists.
  split; [vm_compute; reflexivity|]. split.
  { apply (tdeclares _ _ _ _ eq_refl). eexists. split; [left; reflexivity|reflexivity]. }
  split.
  { apply (tdeclares _ _ _ _ eq_refl). eexists. split; [right; left; reflexivity|reflexivity]. }
  discriminate.
Qed.
Print Assumptions C90_name_declared_twice_refuted.
