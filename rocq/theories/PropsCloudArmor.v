(** Theorems C79: Cloud Armor security policies (cloudarmor.py). *)
From Coq Require Import Lia.
From Verif Require Import SpecCloudArmor Samples BaseFacts PyStrFacts TextProofs CiscoProofs GceProofs QuietTerm CloudArmorProofs.
From Verif Require Import PropsPolicy.
Local Open Scope string_scope.
Local Open Scope list_scope.
Local Open Scope Z_scope.

(** ** C79: within the limits of the service, and deciding as the policy says *)

(** At most 200 rules, each with one to five ranges and a description of at most 64 characters,
    for policies with any number of headers. *)
Theorem C79_limits : forall fs rules, ca_policy fs = Ok rules -> (List.length rules <= 200)%nat /\
  forall r, In r rules -> (exists l, ranges_of r l /\ (1 <= List.length l <= 5)%nat) /\
    forall s, path ["description"] r = Some (JStr s) -> (String.length s <= 64)%nat.
Proof. exact ca_limits. Qed.
Print Assumptions C79_limits.

(** The rules of a header are numbered 1, 2, ... in the order of the terms. *)
Theorem C79_priorities : forall options terms rules, ca_policy [(options, terms)] = Ok rules ->
  forall i r, nth_error rules i = Some r -> path ["priority"] r = Some (JNum (Z.of_nat i + 1)).
Proof. exact ca_priorities. Qed.
Print Assumptions C79_priorities.

(** The rules give a request of a family of the header the outcome of the first term in force
    that matches, and none if there is no such term.  Missing for the full claim: policies with
    several headers, and the terms of the refutations below. *)
Theorem C79_rules_decide_as_policy_partial : forall options terms rules family today v p o,
  ca_policy [(options, terms)] = Ok rules -> header_family options family -> ca_wants v family ->
  (forall t, In t terms -> ca_term_ok family t) -> ca_traffic v p ->
  (ca_decides rules p o <-> ca_policy_decides today terms p o).
Proof. exact ca_decides_as_policy. Qed.
Print Assumptions C79_rules_decide_as_policy_partial.

(** *** A policy that meets the hypotheses *)
Definition cabad : term := Eval vm_compute in set_comment ["known"; "attackers, collected from the logs of the last months, to be reviewed every week"]
  (set_action ["deny"] (set_source_address [v4 10 1 0 0 16; v4 10 2 0 0 16; v4 10 3 0 0 16; v4 10 4 0 0 16; v4 10 5 0 0 16; v4 10 6 0 0 16; v6 db8 32] (blank "bad"))).
Definition cagood : term := Eval vm_compute in set_source_address [v4 10 0 0 0 8] (accept "good").
Definition carest : term := Eval vm_compute in set_action ["deny"] (blank "rest").
Definition apkt (v : ver) (src : Z) : packet :=
  mkPacket (v, src) (v, 1) "tcp" 5000 443 "" 0 (fun _ => False)
    (fun _ => False) (fun _ => False) (fun _ => False) (fun _ => False)
    "0" "" 0 64 100 64 "" "" "" "" "" "" "" (match v with V4 => "inet" | V6 => "inet6" end) "cloudarmor".
Lemma ca_plain_ok t : In t [cabad; cagood; carest] -> ca_term_ok "mixed" t.
Proof.
  intros I. constructor.
  - destruct I as [<-|[<-|[<-|[]]]]; valid_tac.
  - destruct I as [<-|[<-|[<-|[]]]]; [right; eexists; split; [left; reflexivity|left; reflexivity]|right; eexists; split; [left; reflexivity|left; reflexivity]|left; reflexivity].
  - destruct I as [<-|[<-|[<-|[]]]]; (split; [left; reflexivity|intros []]).
  - destruct I as [<-|[<-|[<-|[]]]]; (split; [reflexivity|split; [reflexivity|split; [reflexivity|discriminate]]]).
  - destruct I as [<-|[<-|[<-|[]]]]; (split; discriminate).
Qed.
Lemma ca_quiet t : In t [cabad; cagood; carest] -> quiet "cloudarmor" t.
Proof. intros [<-|[<-|[<-|[]]]]; (constructor; repeat split; try reflexivity; try (left; reflexivity); intros []). Qed.
(** Seven bad networks make two rules; a request from the sixth is refused, one from the rest of
    10.0.0.0/8 allowed. *)
Example C79_example : exists rules, ca_policy [(["mixed"], [cabad; cagood; carest])] = Ok rules /\ List.length rules = 4%nat /\
  ca_decides rules (apkt V4 (10 * 2 ^ 24 + 6 * 2 ^ 16)) "deny(404)" /\ ca_decides rules (apkt V4 (10 * 2 ^ 24 + 7 * 2 ^ 16)) "allow".
Proof.
  destruct (ca_policy [(["mixed"], [cabad; cagood; carest])]) as [rules|] eqn:E; [|vm_compute in E; discriminate E]. exists rules. split; [reflexivity|].
  split; [vm_compute in E; apply ok_inj in E; subst rules; reflexivity|].
  assert (D : forall x o, 0 <= x < 2 ^ 32 -> ca_policy_decides 0 [cabad; cagood; carest] (apkt V4 x) o -> ca_decides rules (apkt V4 x) o).
  { intros x o X H. refine (proj2 (C79_rules_decide_as_policy_partial ["mixed"] _ rules "mixed" 0 V4 (apkt V4 x) o E _ _ ca_plain_ok _) H).
    - right. exists []. split; [discriminate|left; reflexivity].
    - left. reflexivity.
    - constructor; [split; [reflexivity|exact X]|reflexivity]. }
  split.
  - apply D; [lia|]. exists [], cabad, [cagood; carest]. split; [reflexivity|]. split; [|intros y a []]. split; [intros d X; discriminate X|]. split; [|exists "deny", []; split; [reflexivity|right; auto]].
    apply (quiet_matches "cloudarmor" cabad); [apply ca_quiet; left; reflexivity|reflexivity|].
    split; [split; [right; exists (v4 10 6 0 0 16); split; [cbn; tauto|vm_compute; intuition congruence]|intros (n & [] & _)]|]. split; [split; [left; reflexivity|intros (n & [] & _)]|].
    split; [left; reflexivity|]. split; [left; reflexivity|]. split; [left; reflexivity|]. split; [intros o []|left; reflexivity].
  - apply D; [lia|]. exists [cabad], cagood, [carest]. split; [reflexivity|]. split.
    + split; [intros d X; discriminate X|]. split; [|exists "accept", []; split; [reflexivity|left; auto]].
      apply (quiet_matches "cloudarmor" cagood); [apply ca_quiet; right; left; reflexivity|reflexivity|].
      split; [split; [right; exists (v4 10 0 0 0 8); split; [cbn; tauto|vm_compute; intuition congruence]|intros (n & [] & _)]|]. split; [split; [left; reflexivity|intros (n & [] & _)]|].
      split; [left; reflexivity|]. split; [left; reflexivity|]. split; [left; reflexivity|]. split; [intros o []|left; reflexivity].
    + intros y a [<-|[]] (_ & M & _). apply (quiet_matches "cloudarmor" cabad) in M; [|apply ca_quiet; left; reflexivity|reflexivity].
      destruct M as (([X|(n & I & _ & X)] & _) & _); [discriminate X|]. cbn in I. repeat (destruct I as [<-|I]; [vm_compute in X; intuition congruence|]). destruct I.
Qed.

(** *** Policies for which the rules decide differently *)
Definition ca_lets_through (t : term) (p : packet) : Prop :=
  exists rules, ca_policy [(["inet"], [t])] = Ok rules /\ ca_traffic V4 p /\ ca_decides rules p "allow" /\ ~ term_matches t p.
Ltac ca_only := eexists; split; [vm_compute; reflexivity|split; [constructor; [split; [reflexivity|cbn; lia]|reflexivity]|split; [
  eexists _, 1; split; [left; reflexivity|split; [split; [split; [reflexivity|eexists _, "*"; split; [reflexivity|split; [left; reflexivity|left; reflexivity]]]|split; reflexivity]|
    split; [reflexivity|intros ? ? ? [<-|[]] (_ & _ & X) _ _; cbn in X; injection X as <-; reflexivity]]]|]]].

(** Addresses of the other family only: the rule is for all requests. *)
Definition ca_six : term := Eval vm_compute in set_source_address [v6 db8 32] (accept "six").
Theorem C79_other_family_refuted : exists t p, valid_list (t_source_address t) /\ t_source_address t <> [] /\ ca_lets_through t p.
Proof.
  exists ca_six, (apkt V4 1). split; [valid_tac|]. split; [discriminate|]. ca_only.
  intros ((_ & ([X|(n & [<-|[]] & X & _)] & _) & _) & _); [discriminate X|discriminate X].
Qed.
Print Assumptions C79_other_family_refuted.

(** A term for another platform is rendered all the same. *)
Definition ca_other : term := Eval vm_compute in set_platform ["juniper"] (accept "other").
Theorem C79_platform_refuted : exists t p, t_platform t = ["juniper"] /\ ca_lets_through t p.
Proof.
  exists ca_other, (apkt V4 1). split; [reflexivity|]. ca_only.
  intros (_ & _ & _ & _ & _ & _ & _ & ([X|(q & [<-|[]] & X)] & _) & _); discriminate X.
Qed.
Print Assumptions C79_platform_refuted.

(** Numbers start again with every header, so that two rules that disagree have the same one. *)
Theorem C79_second_header_refuted : exists t u rules p, ca_policy [(["inet"], [t]); (["inet"], [u])] = Ok rules /\
  ca_term_ok "inet" t /\ ca_term_ok "inet" u /\ ca_traffic V4 p /\ ca_policy_decides 0 [t; u] p "allow" /\ forall o, ~ ca_decides rules p o.
Proof.
  exists (accept "any"), carest. eexists. exists (apkt V4 1). split; [vm_compute; reflexivity|].
  assert (K : forall t, In t [accept "any"; carest] -> ca_term_ok "inet" t).
  { intros t [<-|[<-|[]]]; (constructor; [constructor|left; reflexivity|split; [left; reflexivity|intros []]|split; [reflexivity|split; [reflexivity|split; [reflexivity|discriminate]]]|split; discriminate]). }
  split; [apply K; left; reflexivity|]. split; [apply K; right; left; reflexivity|]. split; [constructor; [split; [reflexivity|cbn; lia]|reflexivity]|]. split.
  - exists [], (accept "any"), [carest]. split; [reflexivity|]. split; [|intros y a []]. split; [intros d X; discriminate X|]. split; [|exists "accept", []; split; [reflexivity|left; auto]].
    apply (quiet_matches "cloudarmor" (accept "any")); [constructor; repeat split; try reflexivity; try (left; reflexivity); intros []|reflexivity|].
    split; [split; [left; reflexivity|intros (n & [] & _)]|]. split; [split; [left; reflexivity|intros (n & [] & _)]|].
    split; [left; reflexivity|]. split; [left; reflexivity|]. split; [left; reflexivity|]. split; [intros o []|left; reflexivity].
  - intros o (r & n & I & (_ & _ & S) & P & L).
    assert (n = 1) by (destruct I as [<-|[<-|[]]]; cbn in P; congruence). subst n.
    assert (A : "allow" = o).
    { eapply (L _ _ 1); [left; reflexivity| |reflexivity|lia]. split; [split; [reflexivity|eexists _, "*"; split; [reflexivity|split; [left; reflexivity|left; reflexivity]]]|split; reflexivity]. }
    assert (B : "deny(404)" = o).
    { eapply (L _ _ 1); [right; left; reflexivity| |reflexivity|lia]. split; [split; [reflexivity|eexists _, "*"; split; [reflexivity|split; [left; reflexivity|left; reflexivity]]]|split; reflexivity]. }
    subst o. discriminate B.
Qed.
Print Assumptions C79_second_header_refuted.
