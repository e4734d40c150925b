(** Theorems C77: OpenConfig access lists (openconfig.py). *)
From Coq Require Import Lia Permutation.
From Verif Require Import SpecOpenConfig Samples BaseFacts PyStrFacts TextProofs CiscoProofs GceProofs QuietTerm OpenConfigProofs OpenConfigPolicy.
From Verif Require Import PropsPolicy.
Local Open Scope string_scope.
Local Open Scope list_scope.
Local Open Scope Z_scope.

(** ** C77: the access lists decide as the policy says *)

(** For each header and family there is one access list, with the type of the family and the
    name the header gives; the entries are numbered from 1 through all lists. *)
Theorem C77_access_lists : forall order today fs j,
  walk order -> (forall f, In f fs -> clear_options (fst f)) -> oc_policy order today fs = Ok j ->
  exists sets ess, path ["acl-sets"; "acl-set"] j = Some (JList sets) /\ Forall2 entries_of sets ess /\
    Forall2 (fun w set => let '(options, v, ts) := w in
      path ["type"] set = Some (JStr (list_type v)) /\ path ["config"; "type"] set = Some (JStr (list_type v)) /\
      forall name, list_name options v name -> path ["name"] set = Some (JStr name) /\ path ["config"; "name"] set = Some (JStr name)) (lists_wanted fs) sets /\
    forall i e, nth_error (concat ess) i = Some e ->
      path ["sequence-id"] e = Some (JNum (Z.of_nat i + 1)) /\ path ["config"; "sequence-id"] e = Some (JNum (Z.of_nat i + 1)).
Proof. exact oc_lists. Qed.
Print Assumptions C77_access_lists.

(** Every entry comes from a term in force of its filter, and carries the name, the comments
    and the action of that term. *)
Theorem C77_entries_from_terms : forall order today fs j sets,
  walk order -> (forall f, In f fs -> clear_options (fst f)) -> oc_policy order today fs = Ok j ->
  path ["acl-sets"; "acl-set"] j = Some (JList sets) ->
  Forall2 (fun w set => let '(options, v, ts) := w in forall es e, entries_of set es -> In e es ->
    exists t a r o, In t ts /\ meant_for "openconfig" t /\ in_force today t /\ t_action t = a :: r /\ oc_outcome a o /\
      path ["config"; "description"] e = Some (JStr (append "[" (append (t_name t) (append "]: " (join " " (t_comment t)))))) /\
      path ["actions"; "config"; "forwarding-action"] e = Some (JStr o)) (lists_wanted fs) sets.
Proof. exact oc_entries_origin. Qed.
Print Assumptions C77_entries_from_terms.

(** An access list gives a packet of its family the outcome that the first term in force that
    matches asks for, and none if there is no such term.  Missing for the full claim: the terms
    of the refutations below. *)
Theorem C77_lists_decide_as_policy_partial : forall order today fs j sets,
  walk order -> (forall f, In f fs -> clear_options (fst f)) -> oc_policy order today fs = Ok j ->
  path ["acl-sets"; "acl-set"] j = Some (JList sets) ->
  Forall2 (fun w set => let '(options, v, ts) := w in forall p o,
    (forall t, In t ts -> meant_for "openconfig" t -> in_force today t -> oc_term_ok v t) -> oc_traffic v p ->
    (oc_set_decides set p o <-> oc_policy_decides today ts p o)) (lists_wanted fs) sets.
Proof. exact oc_decides. Qed.
Print Assumptions C77_lists_decide_as_policy_partial.

(** *** A policy that meets the hypotheses *)
Definition ocweb : term := Eval vm_compute in set_protocol ["tcp"] (set_destination_port [(80, 80); (443, 444)]
  (set_source_address [v4 10 0 0 0 8] (set_source_address_exclude [v4 10 128 0 0 9]
  (set_destination_address [v4 192 0 2 0 24] (set_destination_address_exclude [v4 192 0 2 128 25] (set_comment ["web"; "servers"] (accept "web"))))))).
Definition ocback : term := Eval vm_compute in set_protocol ["tcp"] (set_option ["tcp-established"] (accept "back")).
Definition ocold : term := Eval vm_compute in set_expiration (Some 100) (set_action ["deny"] (blank "old")).
Definition octun : term := Eval vm_compute in set_protocol ["ipip"; "gre"] (set_action ["reject"] (set_source_address [v4 10 0 0 0 8; v6 db8 32] (blank "tunnels"))).
Definition ocrest : term := Eval vm_compute in set_action ["deny"] (blank "rest").
Definition order1 : list string := ["inet"; "inet6"; "mixed"].
Definition ocfs : list (list string * list term) := [(["edge"; "inet"], [ocold; ocweb; ocback; ocrest]); (["core"; "mixed"], [octun; ocrest])].
Definition opkt (v : ver) (src dst : Z) (proto : string) (sport dport : Z) (option : string -> Prop) : packet :=
  mkPacket (v, src) (v, dst) proto sport dport "" 0 option
    (fun _ => False) (fun _ => False) (fun _ => False) (fun _ => False)
    "0" "" 0 64 100 64 "" "" "" "" "" "" "" (match v with V4 => "inet" | V6 => "inet6" end) "openconfig".
Ltac no_side := split; [split; [constructor|split; [constructor|left; reflexivity]]|left; split; reflexivity].
Ltac oc_rest := match goal with
  | |- t_icmp_type _ = [] => reflexivity
  | |- _ /\ _ /\ _ /\ t_ttl _ <> _ => split; [reflexivity|split; [reflexivity|split; [reflexivity|discriminate]]]
  | |- t_source_interface _ <> _ /\ _ => split; discriminate end.
Lemma ocweb_ok : oc_term_ok V4 ocweb.
Proof.
  constructor; try oc_rest.
  - split.
    + split; [valid_tac|]. split; [valid_tac|]. right. split; [intros n m [<-|[]] [<-|[]]; reflexivity|]. split; [intros n m [<-|[]] [<-|[]]; reflexivity|]. constructor; [constructor|constructor].
    + right. exists (10 * 2 ^ 24 + 1). split; [eexists; split; [left; reflexivity|]; vm_compute; intuition congruence|]. intros (n & [<-|[]] & _ & X). vm_compute in X. intuition congruence.
  - split.
    + split; [valid_tac|]. split; [valid_tac|]. right. split; [intros n m [<-|[]] [<-|[]]; reflexivity|]. split; [intros n m [<-|[]] [<-|[]]; reflexivity|]. constructor; [constructor|constructor].
    + right. exists (192 * 2 ^ 24 + 513). split; [eexists; split; [left; reflexivity|]; vm_compute; intuition congruence|]. intros (n & [<-|[]] & _ & X). vm_compute in X. intuition congruence.
  - intros r [<-|[<-|[]]]; cbn; lia.
  - left. reflexivity.
Qed.
Lemma ocback_ok v : oc_term_ok v ocback.
Proof.
  constructor; try oc_rest; [no_side|no_side|intros r []|]. right. left. split; [|reflexivity]. intros o [<-|[]]. left. reflexivity.
Qed.
Lemma ocrest_ok v : oc_term_ok v ocrest.
Proof. constructor; try oc_rest; [no_side|no_side|intros r []|left; reflexivity]. Qed.
Lemma octun_ok v : oc_term_ok v octun.
Proof.
  constructor; try oc_rest; [|no_side|intros r []|left; reflexivity]. split; [split; [valid_tac|split; [constructor|left; reflexivity]]|].
  right. destruct v; [exists (10 * 2 ^ 24 + 1)|exists (db8 * 2 ^ 96)]; (split; [|intros (n & [] & _)]).
  - eexists. split; [left; reflexivity|]. vm_compute. intuition congruence.
  - eexists. split; [right; left; reflexivity|]. vm_compute. intuition congruence.
Qed.
Lemma walk1 : walk order1. Proof. apply Permutation_refl. Qed.
Lemma clear_two name af : str_in name family_words = false -> name <> af -> clear_options [name; af].
Proof.
  intros N D. split.
  - apply NoDup_cons; [intros [X|[]]; congruence|]. apply NoDup_cons; [intros []|apply NoDup_nil].
  - intros a b Fa Fb [<-|[<-|[]]] [<-|[<-|[]]]; try reflexivity; exfalso; [apply str_in_spec in Fa|apply str_in_spec in Fb]; congruence.
Qed.
Lemma ocfs_clear f : In f ocfs -> clear_options (fst f).
Proof. intros [<-|[<-|[]]]; apply clear_two; first [reflexivity|discriminate]. Qed.
(** All terms in force of the example are within the hypotheses, and the outcome is as the
    terms say: a web request is accepted, a tunnel from the outside rejected. *)
Example C77_example : exists j s1 s2 s3, oc_policy order1 200 ocfs = Ok j /\ path ["acl-sets"; "acl-set"] j = Some (JList [s1; s2; s3]) /\
  path ["name"] s1 = Some (JStr "edge") /\ path ["name"] s2 = Some (JStr "core4") /\ path ["name"] s3 = Some (JStr "core6") /\
  oc_set_decides s1 (opkt V4 (10 * 2 ^ 24 + 1) (192 * 2 ^ 24 + 513) "tcp" 5000 443 (fun _ => False)) "ACCEPT" /\
  oc_set_decides s3 (opkt V6 (db8 * 2 ^ 96) 7 "gre" 0 0 (fun _ => False)) "REJECT".
Proof.
  destruct (oc_policy order1 200 ocfs) as [j|] eqn:E; [|vm_compute in E; discriminate E].
  assert (P : exists s1 s2 s3, path ["acl-sets"; "acl-set"] j = Some (JList [s1; s2; s3])) by (vm_compute in E; apply ok_inj in E; subst j; do 3 eexists; reflexivity).
  destruct P as (s1 & s2 & s3 & P). exists j, s1, s2, s3. split; [reflexivity|]. split; [exact P|].
  destruct (C77_access_lists order1 200 ocfs j walk1 ocfs_clear E) as (sets & ess & P' & _ & F & _). rewrite P in P'. injection P' as <-.
  pose proof (C77_lists_decide_as_policy_partial order1 200 ocfs j _ walk1 ocfs_clear E P) as D.
  change (lists_wanted ocfs) with [(["edge"; "inet"], V4, [ocold; ocweb; ocback; ocrest]); (["core"; "mixed"], V4, [octun; ocrest]); (["core"; "mixed"], V6, [octun; ocrest])] in F, D.
  inversion F as [|? ? ? ? F1 G1]; subst. inversion G1 as [|? ? ? ? F2 G2]; subst. inversion G2 as [|? ? ? ? F3 G3]; subst.
  inversion D as [|? ? ? ? D1 H1]; subst. inversion H1 as [|? ? ? ? D2 H2]; subst. inversion H2 as [|? ? ? ? D3 H3]; subst. clear F D G1 G2 G3 H1 H2 H3 D2.
  split; [apply F1; exists "edge", []; split; reflexivity|]. split; [apply F2; exists "core", []; split; reflexivity|]. split; [apply F3; exists "core", []; split; reflexivity|].
  split.
  - apply D1.
    + intros t [<-|[<-|[<-|[<-|[]]]]] _ Fo; [specialize (Fo 100 eq_refl); lia|exact ocweb_ok|apply ocback_ok|apply ocrest_ok].
    + constructor; [split; [reflexivity|cbn; lia]|split; [reflexivity|cbn; lia]|reflexivity|reflexivity].
    + exists [ocold], ocweb, [ocback; ocrest]. split; [reflexivity|]. split.
      * split; [intros d X; discriminate X|]. split; [|exists "accept", []; split; [reflexivity|left; auto]].
        apply (quiet_matches "openconfig" ocweb); [|reflexivity|].
        { constructor; repeat split; try reflexivity; try (left; reflexivity); intros []. }
        split; [split; [right; eexists; split; [left; reflexivity|]; vm_compute; intuition congruence|intros (n & [<-|[]] & _ & X); vm_compute in X; intuition congruence]|].
        split; [split; [right; eexists; split; [left; reflexivity|]; vm_compute; intuition congruence|intros (n & [<-|[]] & _ & X); vm_compute in X; intuition congruence]|].
        split; [right; exists "tcp"; split; [left; reflexivity|reflexivity]|]. split; [left; reflexivity|]. split; [right; exists (443, 444); split; [right; left; reflexivity|vm_compute; intuition congruence]|].
        split; [intros o []|left; reflexivity].
      * intros y a [<-|[]] (Fo & _). specialize (Fo 100 eq_refl). lia.
  - apply D3.
    + intros t [<-|[<-|[]]] _ _; [apply octun_ok|apply ocrest_ok].
    + constructor; [split; [reflexivity|cbn; lia]|split; [reflexivity|cbn; lia]|reflexivity|reflexivity].
    + exists [], octun, [ocrest]. split; [reflexivity|]. split; [|intros y a []].
      split; [intros d X; discriminate X|]. split; [|exists "reject", []; split; [reflexivity|right; right; auto]].
      apply (quiet_matches "openconfig" octun); [|reflexivity|].
      { constructor; repeat split; try reflexivity; try (left; reflexivity); intros []. }
      split; [split; [right; eexists; split; [right; left; reflexivity|]; vm_compute; intuition congruence|intros (n & [] & _)]|].
      split; [split; [left; reflexivity|intros (n & [] & _)]|].
      split; [right; exists "gre"; split; [right; left; reflexivity|reflexivity]|]. split; [left; reflexivity|]. split; [left; reflexivity|]. split; [intros o []|left; reflexivity].
Qed.

(** *** Terms for which the lists decide differently *)

(** A list that lets through a packet although the only term of the policy does not match. *)
Definition lets_through (t : term) (p : packet) : Prop :=
  exists j s, oc_policy order1 0 [(["edge"], [t])] = Ok j /\ path ["acl-sets"; "acl-set"] j = Some (JList [s]) /\
    oc_traffic V4 p /\ oc_set_decides s p "ACCEPT" /\ ~ term_matches t p.
Ltac oc_made := eexists; eexists; split; [vm_compute; reflexivity|split; [reflexivity|split;
  [constructor; [split; [reflexivity|cbn; lia]|split; [reflexivity|cbn; lia]|cbn; tauto|reflexivity]|]]].
Ltac oc_same := let e := fresh in let o := fresh in let n := fresh in let I := fresh in let X := fresh in
  intros e o n I [_ X] _ _; cbn in I; repeat (destruct I as [<-|I]; [cbn in X; injection X as <-; reflexivity|]); destruct I.
Ltac oc_meets := constructor; cbn; try exact Logic.I.

(** Addresses of the other family only: the list of the family has an entry for any address. *)
Definition oc_six : term := Eval vm_compute in set_source_address [v6 db8 32] (accept "six").
Theorem C77_other_family_refuted : exists t p, subtractable (t_source_address t) (t_source_address_exclude t) /\ t_source_address t <> [] /\ lets_through t p.
Proof.
  exists oc_six, (opkt V4 1 2 "tcp" 5000 80 (fun _ => False)). split; [split; [valid_tac|split; [constructor|left; reflexivity]]|]. split; [discriminate|].
  oc_made. split.
  - eexists V4, _, _, 1. split; [reflexivity|]. split; [reflexivity|]. split; [left; reflexivity|]. split; [split; [oc_meets|reflexivity]|]. split; [reflexivity|oc_same].
  - intros ((_ & ([X|(n & [<-|[]] & X & _)] & _) & _) & _); [discriminate X|discriminate X].
Qed.
Print Assumptions C77_other_family_refuted.

(** Everything excluded: the same. *)
Definition oc_gone : term := Eval vm_compute in set_source_address [v4 10 0 0 0 8] (set_source_address_exclude [v4 10 0 0 0 8]
  (set_destination_address [v4 192 0 2 0 24] (set_destination_address_exclude [v4 192 0 2 128 25] (accept "gone")))).
Theorem C77_all_excluded_refuted : exists t p, subtractable (t_source_address t) (t_source_address_exclude t) /\ t_source_address t <> [] /\ lets_through t p.
Proof.
  exists oc_gone, (opkt V4 1 (192 * 2 ^ 24 + 513) "tcp" 5000 80 (fun _ => False)). split.
  { split; [valid_tac|]. split; [valid_tac|]. right. split; [intros n m [<-|[]] [<-|[]]; reflexivity|]. split; [intros n m [<-|[]] [<-|[]]; reflexivity|]. constructor; [constructor|constructor]. }
  split; [discriminate|]. oc_made. split.
  - eexists V4, _, _, 1. split; [reflexivity|]. split; [reflexivity|]. split; [left; reflexivity|]. split; [|split; [reflexivity|oc_same]].
    split; [|reflexivity]. oc_meets. eexists. split; [reflexivity|]. apply (range_text (v4 192 0 2 0 25)).
    + pose proof (ltac:(valid_tac) : valid_list [v4 192 0 2 0 25]) as V. inversion V. assumption.
    + unfold on_net. cbn. lia.
    + vm_compute. intuition congruence.
  - intros ((_ & ([X|(n & [<-|[]] & _ & X)] & _) & _) & _); [discriminate X|]. vm_compute in X. intuition congruence.
Qed.
Print Assumptions C77_all_excluded_refuted.

(** Exclusions on one side only: no configuration at all. *)
Definition oc_half : term := Eval vm_compute in set_source_address [v4 10 0 0 0 8] (set_source_address_exclude [v4 10 128 0 0 9] (accept "half")).
Theorem C77_one_sided_exclusion_refuted : exists t, subtractable (t_source_address t) (t_source_address_exclude t) /\
  side_present V4 (t_source_address t) (t_source_address_exclude t) /\ t_destination_address t = [] /\ t_destination_address_exclude t = [] /\
  oc_policy order1 0 [(["edge"], [t])] = Raise (Exn "TypeError").
Proof.
  exists oc_half. split; [|split; [|split; [reflexivity|split; [reflexivity|vm_compute; reflexivity]]]].
  - split; [valid_tac|]. split; [valid_tac|]. right. split; [intros n m [<-|[]] [<-|[]]; reflexivity|]. split; [intros n m [<-|[]] [<-|[]]; reflexivity|]. constructor; [constructor|constructor].
  - right. exists (10 * 2 ^ 24 + 1). split; [eexists; split; [left; reflexivity|]; vm_compute; intuition congruence|]. intros (n & [<-|[]] & _ & X). vm_compute in X. intuition congruence.
Qed.
Print Assumptions C77_one_sided_exclusion_refuted.

(** Port 0 is taken for any port. *)
Definition oc_zero : term := Eval vm_compute in set_protocol ["tcp"] (set_source_port [(0, 0)] (accept "zero")).
Ltac tcp_says := eexists; split; [reflexivity|cbn; tauto].
Theorem C77_port_zero_refuted : exists t p, t_source_port t = [(0, 0)] /\ p_sport p = 5000 /\ lets_through t p.
Proof.
  exists oc_zero, (opkt V4 1 2 "tcp" 5000 80 (fun _ => False)). split; [reflexivity|]. split; [reflexivity|]. oc_made. split.
  - eexists V4, _, _, 1. split; [reflexivity|]. split; [reflexivity|]. split; [left; reflexivity|]. split; [|split; [reflexivity|oc_same]].
    split; [|reflexivity]. oc_meets. tcp_says.
  - intros (_ & _ & (_ & [X|(r & [<-|[]] & X)] & _) & _); [discriminate X|]. vm_compute in X. intuition congruence.
Qed.
Print Assumptions C77_port_zero_refuted.

(** icmp-type is accepted, but written nowhere. *)
Definition oc_echo : term := Eval vm_compute in set_protocol ["icmp"] (set_icmp_type ["echo-request"] (accept "echo")).
Definition opkt_icmp (type : string) : packet :=
  mkPacket (V4, 1) (V4, 2) "icmp" 0 0 type 0 (fun _ => False)
    (fun _ => False) (fun _ => False) (fun _ => False) (fun _ => False) "0" "" 0 64 100 64 "" "" "" "" "" "" "" "inet" "openconfig".
Theorem C77_icmp_type_refuted : exists t p, t_icmp_type t = ["echo-request"] /\ p_icmp_type p = "echo-reply" /\ lets_through t p.
Proof.
  exists oc_echo, (opkt_icmp "echo-reply"). split; [reflexivity|]. split; [reflexivity|]. oc_made. split.
  - eexists V4, _, _, 1. split; [reflexivity|]. split; [reflexivity|]. split; [left; reflexivity|]. split; [|split; [reflexivity|oc_same]].
    split; [|reflexivity]. oc_meets. tcp_says.
  - intros (_ & _ & _ & _ & _ & _ & ([X|(r & [<-|[]] & X)] & _) & _); [discriminate X|]. discriminate X.
Qed.
Print Assumptions C77_icmp_type_refuted.

(** Established connections over tcp and udp: every udp packet. *)
Definition oc_replies : term := Eval vm_compute in set_protocol ["tcp"; "udp"] (set_option ["established"] (accept "replies")).
Theorem C77_udp_established_refuted : exists t p, t_option t = ["established"] /\ ~ p_option p "established" /\ lets_through t p.
Proof.
  exists oc_replies, (opkt V4 1 2 "udp" 5000 80 (fun _ => False)). split; [reflexivity|]. split; [intros []|]. oc_made. split.
  - eexists V4, _, _, 2. split; [reflexivity|]. split; [reflexivity|]. split; [right; left; reflexivity|]. split; [|split; [reflexivity|oc_same]].
    split; [|reflexivity]. oc_meets. tcp_says.
  - intros (_ & _ & _ & _ & (_ & X & _) & _). exact (X "established" (or_introl eq_refl)).
Qed.
Print Assumptions C77_udp_established_refuted.

(** Of several options only the last one is checked. *)
Definition oc_both : term := Eval vm_compute in set_protocol ["tcp"] (set_option ["tcp-established"; "is-fragment"] (accept "both")).
Theorem C77_last_option_refuted : exists t p, t_option t = ["tcp-established"; "is-fragment"] /\ ~ p_option p "tcp-established" /\ lets_through t p.
Proof.
  exists oc_both, (opkt V4 1 2 "tcp" 5000 80 (fun o => o = "is-fragment")). split; [reflexivity|]. split; [discriminate|].
  eexists; eexists; split; [vm_compute; reflexivity|split; [reflexivity|split]].
  { constructor; [split; [reflexivity|cbn; lia]|split; [reflexivity|cbn; lia]|split; discriminate|reflexivity]. }
  split.
  - eexists V4, _, _, 1. split; [reflexivity|]. split; [reflexivity|]. split; [left; reflexivity|]. split; [|split; [reflexivity|oc_same]].
    split; [|reflexivity]. oc_meets; [tcp_says|]. split; [reflexivity|]. eexists. split; [reflexivity|]. right. right. split; reflexivity.
  - intros (_ & _ & _ & _ & (_ & X & _) & _). discriminate (X "tcp-established" (or_introl eq_refl)).
Qed.
Print Assumptions C77_last_option_refuted.

(** A header with several families: what comes out depends on the order in which a set is
    walked, which changes from run to run. *)
Theorem C77_families_order_refuted : exists fs order order' j j',
  walk order /\ walk order' /\ oc_policy order 0 fs = Ok j /\ oc_policy order' 0 fs = Ok j' /\ j <> j'.
Proof.
  exists [(["edge"; "inet"; "inet6"], [ocrest])], order1, ["inet6"; "inet"; "mixed"]. eexists. eexists.
  split; [exact walk1|]. split; [apply perm_swap|]. split; [vm_compute; reflexivity|]. split; [vm_compute; reflexivity|]. discriminate.
Qed.
Print Assumptions C77_families_order_refuted.
