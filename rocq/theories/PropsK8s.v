(** Theorems C80: Kubernetes network policies (k8s.py). *)
From Coq Require Import Lia.
From Verif Require Import SpecK8s Samples BaseFacts PyStrFacts IPFacts TextProofs CiscoProofs GceProofs QuietTerm K8sProofs.
From Verif Require Import PropsPolicy.
Local Open Scope string_scope.
Local Open Scope list_scope.
Local Open Scope Z_scope.

(** ** C80: resources the API server takes, permitting what the policy accepts *)

(** No two resources of a header have the same name. *)
Theorem C80_names_distinct : forall today options hc terms items, k8_policy today [((options, hc), terms)] = Ok items ->
  exists ns, Forall2 name_of items ns /\ NoDup ns.
Proof. exact k8_names_distinct. Qed.
Print Assumptions C80_names_distinct.

(** The API server takes every resource, for policies with any number of headers.  Missing for
    the full claim: the terms of the refutations below. *)
Theorem C80_resources_accepted_partial : forall today fs items, k8_policy today fs = Ok items ->
  (forall options hc terms w t, In ((options, hc), terms) fs -> header_way options w -> In t terms -> counts today t -> k8_term_takes w t) ->
  forall item, In item items -> accepted_by_api item.
Proof. exact k8_accepted. Qed.
Print Assumptions C80_resources_accepted_partial.

(** When there is a resource for the direction, the traffic permitted is that for which the
    first term in force that matches, in one of the headers for the direction, accepts.
    Missing for the full claim: terms that accept after one that denies, terms with exclusions
    of the other side, and policies that leave no resource. *)
Theorem C80_permits_as_policy_partial : forall today fs items w p, k8_policy today fs = Ok items ->
  (forall options hc terms, In ((options, hc), terms) fs -> header_way options w ->
    denies_last today terms /\ forall t, In t terms -> counts today t -> k8_term_ok w t) ->
  k8_traffic w p -> (exists item, In item items /\ applies w item) ->
  (k8_permits w items p <-> exists options hc terms, In ((options, hc), terms) fs /\ header_way options w /\ k8_policy_decides today terms p "accept").
Proof. exact k8_decides_as_policy. Qed.
Print Assumptions C80_permits_as_policy_partial.

(** *** A policy that meets the hypotheses *)
Ltac addr := split; [vm_compute; discriminate|vm_compute; reflexivity].
Definition kweb : term := Eval vm_compute in set_destination_port [(80, 80); (8000, 8100)] (set_protocol ["tcp"; "udp"]
  (set_source_address_exclude [v4 10 1 0 0 16] (set_source_address [v4 10 0 0 0 8] (accept "web")))).
Definition kold : term := Eval vm_compute in set_expiration (Some 0) (set_source_address [v4 11 0 0 0 8] (accept "old")).
Definition krest : term := Eval vm_compute in set_action ["deny"] (blank "rest").
Definition kfs := [(([] : list string, ["the web servers"]), [kweb; kold; krest])].
Definition kpkt (src dst : Z) (proto : string) (dport : Z) : packet :=
  mkPacket (V4, src) (V4, dst) proto 5000 dport "" 0 (fun _ => False)
    (fun _ => False) (fun _ => False) (fun _ => False) (fun _ => False)
    "0" "" 0 64 100 64 "" "" "" "" "" "" "" "inet" "k8s".
Lemma k8_quiet t : In t [kweb; krest] -> quiet "k8s" t.
Proof. intros [<-|[<-|[]]]; (constructor; repeat split; try reflexivity; try (left; reflexivity); intros []). Qed.
Lemma k8_plain t : In t [kweb; kold; krest] -> counts 5 t -> In t [kweb; krest].
Proof. intros [<-|[<-|[<-|[]]]] [C _]; [left; reflexivity|specialize (C 0 eq_refl); discriminate C|right; left; reflexivity]. Qed.
Lemma k8_plain_ok t : In t [kweb; krest] -> k8_term_ok Ingress t.
Proof.
  intros I. constructor.
  - destruct I as [<-|[<-|[]]]; eexists; reflexivity.
  - destruct I as [<-|[<-|[]]]; (split; [valid_tac|split; [valid_tac|]]); [right|left; reflexivity].
    split; [intros n m [<-|[]] [<-|[]]; reflexivity|]. split; [intros n m [<-|[]] [<-|[]]; reflexivity|]. repeat constructor.
  - destruct I as [<-|[<-|[]]]; reflexivity.
  - destruct I as [<-|[<-|[]]]; reflexivity.
  - destruct I as [<-|[<-|[]]]; intros n; cbn; tauto.
  - destruct I as [<-|[<-|[]]]; intros X; [discriminate|contradiction X; reflexivity].
  - destruct I as [<-|[<-|[]]]; (split; [reflexivity|split; [reflexivity|split; [reflexivity|discriminate]]]).
  - destruct I as [<-|[<-|[]]]; (split; discriminate).
Qed.
Lemma inside_16 : strictly_inside (v4 10 1 0 0 16) (v4 10 0 0 0 8).
Proof.
  assert (A1 : naddr (v4 10 1 0 0 16) = 167837696) by reflexivity. assert (A2 : size (v4 10 1 0 0 16) = 65536) by reflexivity.
  assert (A3 : naddr (v4 10 0 0 0 8) = 167772160) by reflexivity. assert (A4 : size (v4 10 0 0 0 8) = 16777216) by reflexivity.
  unfold strictly_inside, covers. rewrite A1, A2, A3, A4. split.
  - intros x [C1 C2]. split; [rewrite <- C1; reflexivity|lia].
  - exists (V4, 167772160). cbn [snd fst]. split; [split; [reflexivity|lia]|]. intros [_ C]. lia.
Qed.
Lemma apart_11 x : covers (v4 10 0 0 0 8) x -> covers (v4 11 0 0 0 8) x -> False.
Proof.
  assert (A1 : naddr (v4 11 0 0 0 8) = 184549376) by reflexivity. assert (A3 : naddr (v4 10 0 0 0 8) = 167772160) by reflexivity. assert (A4 : size (v4 10 0 0 0 8) = 16777216) by reflexivity.
  unfold covers. rewrite A1, A3, A4. intros [_ C] [_ D]. lia.
Qed.
Lemma k8_plain_takes t : In t [kweb; krest] -> k8_term_takes Ingress t.
Proof.
  intros I. constructor.
  - destruct I as [<-|[<-|[]]]; cbn; intros X; repeat (destruct X as [X|X]; [discriminate X|]); exact X.
  - destruct I as [<-|[<-|[]]]; intros n; cbn; tauto.
  - destruct I as [<-|[<-|[]]]; intros r X; cbn in X; [|destruct X]. destruct X as [<-|[<-|[]]]; cbn; lia.
  - destruct I as [<-|[<-|[]]]; (split; [valid_tac|split; [valid_tac|]]); [|intros n e []]. intros n e [<-|[]] [<-|[]]. exact inside_16.
Qed.
Lemma k8_plain_last : denies_last 5 [kweb; kold; krest].
Proof.
  intros l1 t l2 u X Iu Ct Ac Cu. destruct l1 as [|a l1]; [injection X as <- _; discriminate Ac|]. injection X as _ X.
  destruct l1 as [|b l1]; [injection X as <- _; discriminate Ac|]. injection X as _ X.
  destruct l1 as [|c l1]; [injection X as _ <-; destruct Iu|]. injection X as _ X. destruct l1; discriminate X.
Qed.
Example C80_example : exists items, k8_policy 5 kfs = Ok items /\ List.length items = 2%nat /\
  (forall item, In item items -> accepted_by_api item) /\
  k8_permits Ingress items (kpkt (10 * 2 ^ 24) 1 "udp" 8080) /\ ~ k8_permits Ingress items (kpkt (10 * 2 ^ 24 + 2 ^ 16) 1 "udp" 8080) /\
  k8_permits Egress items (kpkt 1 (10 * 2 ^ 24 + 2 ^ 16) "udp" 8080).
Proof.
  destruct (k8_policy 5 kfs) as [items|] eqn:E; [|vm_compute in E; discriminate E]. exists items. split; [reflexivity|].
  assert (E' := E). vm_compute in E'. apply ok_inj in E'. split; [subst items; reflexivity|].
  assert (Ap : exists item, In item items /\ applies Ingress item) by (subst items; eexists; split; [left; reflexivity|]; split; [reflexivity|]; eexists; split; [reflexivity|left; reflexivity]).
  split; [|split; [|split]].
  - apply (C80_resources_accepted_partial 5 kfs items E). intros options hc terms w t [X|[]] W It Ct. injection X as <- <- <-.
    destruct w; [|destruct W]. apply k8_plain_takes, k8_plain; assumption.
  - apply (C80_permits_as_policy_partial 5 kfs items Ingress (kpkt (10 * 2 ^ 24) 1 "udp" 8080) E).
    + intros options hc terms [X|[]] _. injection X as <- <- <-. split; [|intros t It Ct; apply k8_plain_ok, k8_plain; assumption].
      exact k8_plain_last.
    + constructor; [addr|reflexivity].
    + exact Ap.
    + exists [], ["the web servers"], [kweb; kold; krest]. split; [left; reflexivity|]. split; [intros []|].
      exists [], kweb, [kold; krest]. split; [reflexivity|]. split; [|intros y a []]. split; [intros d X; discriminate X|]. split; [|reflexivity].
      apply (quiet_matches "k8s" kweb); [apply k8_quiet; left; reflexivity|reflexivity|].
      split; [split; [right; exists (v4 10 0 0 0 8); split; [left; reflexivity|vm_compute; intuition congruence]|intros (n & [<-|[]] & C); vm_compute in C; intuition congruence]|].
      split; [split; [left; reflexivity|intros (n & [] & _)]|].
      split; [right; exists "udp"; split; [right; left; reflexivity|reflexivity]|]. split; [left; reflexivity|]. split; [right; exists (8000, 8100); split; [right; left; reflexivity|vm_compute; intuition congruence]|]. split; [intros o []|left; reflexivity].
  - rewrite (C80_permits_as_policy_partial 5 kfs items Ingress (kpkt (10 * 2 ^ 24 + 2 ^ 16) 1 "udp" 8080) E).
    + intros (options & hc & terms & [X|[]] & _ & l1 & t & l2 & Et & (F & M & A) & _). injection X as <- <- <-.
      assert (It : In t [kweb; kold; krest]) by (rewrite Et; apply in_app_iff; right; left; reflexivity).
      destruct It as [<-|[<-|[<-|[]]]]; [|specialize (F 0 eq_refl); discriminate F|discriminate A].
      apply (quiet_matches "k8s" kweb) in M; [|apply k8_quiet; left; reflexivity|reflexivity]. destruct M as ((_ & N) & _). apply N. exists (v4 10 1 0 0 16). split; [left; reflexivity|]. vm_compute. intuition congruence.
    + intros options hc terms [X|[]] _. injection X as <- <- <-. split; [|intros t It Ct; apply k8_plain_ok, k8_plain; assumption].
      exact k8_plain_last.
    + constructor; [addr|reflexivity].
    + exact Ap.
  - left. subst items. intros item [<-|[<-|[]]] (_ & l & X & I); cbn in X; injection X as <-; destruct I as [I|[]]; discriminate I.
Qed.

(** *** Policies whose resources are refused or permit something else *)
(** An accepting term after a default deny has no effect in the policy but opens the pods. *)
Definition klate : term := Eval vm_compute in set_source_address [v4 10 0 0 0 8] (accept "late").
Theorem C80_order_refuted : exists fs items p, k8_policy 5 fs = Ok items /\ k8_traffic Ingress p /\
  (forall options hc terms t, In ((options, hc), terms) fs -> In t terms -> k8_term_ok Ingress t) /\
  (forall options hc terms, In ((options, hc), terms) fs -> k8_policy_decides 5 terms p "deny") /\ k8_permits Ingress items p.
Proof.
  exists [(([], []), [krest; klate])]. eexists. exists (kpkt (10 * 2 ^ 24) 1 "udp" 8080). split; [vm_compute; reflexivity|]. split; [constructor; [addr|reflexivity]|]. split; [|split].
  - intros options hc terms t [X|[]] It. injection X as <- <- <-. destruct It as [<-|[<-|[]]]; [apply k8_plain_ok; right; left; reflexivity|]. constructor; try reflexivity.
    + eexists; reflexivity.
    + split; [valid_tac|split; [valid_tac|left; reflexivity]].
    + intros n [].
    + intros X. contradiction X. reflexivity.
    + split; [reflexivity|split; [reflexivity|split; [reflexivity|discriminate]]].
    + split; discriminate.
  - intros options hc terms [X|[]]. injection X as <- <- <-. exists [], krest, [klate]. split; [reflexivity|]. split; [|intros y a []]. split; [intros d X; discriminate X|]. split; [|reflexivity].
    apply (quiet_matches "k8s" krest); [apply k8_quiet; right; left; reflexivity|reflexivity|].
    split; [split; [left; reflexivity|intros (n & [] & _)]|]. split; [split; [left; reflexivity|intros (n & [] & _)]|].
    split; [left; reflexivity|]. split; [left; reflexivity|]. split; [left; reflexivity|]. split; [intros o []|left; reflexivity].
  - right. eexists. split; [right; left; reflexivity|]. split; [split; [reflexivity|]; eexists; split; [reflexivity|left; reflexivity]|].
    eexists _, _. split; [reflexivity|]. split; [left; reflexivity|]. split; [exists []; split; [reflexivity|left; reflexivity]|]. eexists. split; [reflexivity|]. right.
    exists (k8_peer [] (v4 10 0 0 0 8)). split; [left; reflexivity|]. apply k8_peer_says; [constructor| |addr|].
    + assert (V : valid_list [v4 10 0 0 0 8]) by valid_tac. exact (proj1 (Forall_forall _ _) V _ (or_introl eq_refl)).
    + split; [vm_compute; intuition congruence|intros (n & [] & _)].
Qed.
Print Assumptions C80_order_refuted.

(** When every term has expired nothing is written, and everything is permitted. *)
Theorem C80_expired_refuted : exists fs, k8_policy 5 fs = Ok [] /\ (forall options hc terms t, In ((options, hc), terms) fs -> In t terms -> ~ in_force 5 t) /\
  fs <> [] /\ forall w p, k8_permits w [] p.
Proof.
  exists [(([], []), [kold])]. split; [vm_compute; reflexivity|]. split; [|split; [discriminate|intros w p; left; intros item []]].
  intros options hc terms t [X|[]] It C. injection X as <- <- <-. destruct It as [<-|[]]. specialize (C 0 eq_refl). discriminate C.
Qed.
Print Assumptions C80_expired_refuted.

(** Exclusions of the destination are dropped from an ingress term. *)
Definition kfar : term := Eval vm_compute in set_destination_address_exclude [v4 10 0 0 1 32] (set_source_address [v4 10 0 0 0 8] (accept "far")).
Theorem C80_far_exclusion_refuted : exists t items p, k8_policy 5 [(([], []), [t])] = Ok items /\ k8_traffic Ingress p /\ ~ term_matches t p /\ k8_permits Ingress items p.
Proof.
  exists kfar. eexists. exists (kpkt (10 * 2 ^ 24) (10 * 2 ^ 24 + 1) "udp" 8080). split; [vm_compute; reflexivity|]. split; [constructor; [addr|reflexivity]|]. split.
  - intros ((_ & _ & _ & N) & _). apply N. exists (v4 10 0 0 1 32). split; [left; reflexivity|vm_compute; intuition congruence].
  - right. eexists. split; [left; reflexivity|]. split; [split; [reflexivity|]; eexists; split; [reflexivity|left; reflexivity]|].
    eexists _, _. split; [reflexivity|]. split; [left; reflexivity|]. split; [exists []; split; [reflexivity|left; reflexivity]|]. eexists. split; [reflexivity|]. right.
    exists (k8_peer [] (v4 10 0 0 0 8)). split; [left; reflexivity|]. apply k8_peer_says; [constructor| |addr|].
    + assert (V : valid_list [v4 10 0 0 0 8]) by valid_tac. exact (proj1 (Forall_forall _ _) V _ (or_introl eq_refl)).
    + split; [vm_compute; intuition congruence|intros (n & [] & _)].
Qed.
Print Assumptions C80_far_exclusion_refuted.

(** Two headers may use the same name. *)
Theorem C80_two_headers_refuted : exists fs items ns, k8_policy 5 fs = Ok items /\ Forall2 name_of items ns /\ ~ NoDup ns.
Proof.
  exists [(([], []), [klate]); (([], []), [klate])]. eexists. exists ["late"; "late"]. split; [vm_compute; reflexivity|]. split; [repeat constructor|].
  intros X. inversion X. apply H1. left. reflexivity.
Qed.
Print Assumptions C80_two_headers_refuted.

Definition k8_refused (t : term) : Prop := exists item, k8_policy 5 [(([], []), [t])] = Ok [item] /\ ~ accepted_by_api item.
(** A dot after a dot is let through, but is no name of a resource. *)
Definition kdots : term := Eval vm_compute in set_name "a..b" klate.
Lemma no_dots labels : "a..b" = join "." labels -> ~ (forall l, In l labels -> l <> "" /\ ~ In "."%char (list_ascii_of_string l)).
Proof.
  intros E H. destruct labels as [|a [|b [|c labels]]]; cbn [join] in E.
  - discriminate E.
  - destruct (H a (or_introl eq_refl)) as [_ A]. subst a. apply A. cbn. tauto.
  - destruct (H a (or_introl eq_refl)) as [A0 A]. destruct (H b (or_intror (or_introl eq_refl))) as [_ B].
    destruct a as [|c1 a]; [contradiction A0; reflexivity|]. cbn [append] in E. injection E as <- E.
    destruct a as [|c2 a]; [cbn [append] in E; injection E as E; subst b; apply B; cbn; tauto|]. cbn [append] in E. injection E as <- _. apply A. cbn. tauto.
  - destruct (H a (or_introl eq_refl)) as [A0 A]. destruct (H b (or_intror (or_introl eq_refl))) as [B0 B].
    destruct a as [|c1 a]; [contradiction A0; reflexivity|]. cbn [append] in E. injection E as <- E.
    destruct a as [|c2 a]; [|cbn [append] in E; injection E as <- _; apply A; cbn; tauto]. cbn [append] in E. injection E as E.
    destruct b as [|c3 b]; [contradiction B0; reflexivity|]. cbn [append] in E. injection E as <- _. apply B. cbn. tauto.
Qed.
Theorem C80_dots_refuted : exists t, t_name t = "a..b" /\ k8_refused t.
Proof.
  exists kdots. split; [reflexivity|]. eexists. split; [vm_compute; reflexivity|]. intros (_ & _ & (s & N & _ & labels & _ & E & H) & _).
  unfold name_of in N. cbn in N. injection N as <-. apply (no_dots labels E). intros l I. destruct (H l I) as (A & B & _). split.
  - intros ->. cbn in B. repeat (destruct B as [B|B]; [discriminate B|]). exact B.
  - intros D. destruct (A _ D) as [X|X]; [|discriminate X]. cbn in X. repeat (destruct X as [X|X]; [discriminate X|]). exact X.
Qed.
Print Assumptions C80_dots_refuted.

(** Every exclusion is written below every address, also where it is not inside. *)
Definition kapart : term := Eval vm_compute in set_source_address_exclude [v4 10 1 0 0 16] (set_source_address [v4 10 0 0 0 8; v4 11 0 0 0 8] (accept "apart")).
Theorem C80_exclusions_refuted : exists t, subtractable (t_source_address t) (t_source_address_exclude t) /\ k8_refused t.
Proof.
  exists kapart. split.
  { split; [valid_tac|split; [valid_tac|right]]. split; [intros n m [<-|[<-|[]]] [<-|[<-|[]]]; reflexivity|]. split; [intros n m [<-|[]] [<-|[]]; reflexivity|].
    constructor; [constructor; [intros x C D; exact (apart_11 x C D)|constructor]|repeat constructor]. }
  eexists. split; [vm_compute; reflexivity|]. intros (_ & _ & _ & H). specialize (H Ingress). cbn in H. destruct H as (l & X & H). injection X as <-.
  destruct (H _ (or_introl eq_refl)) as (_ & l & X & P). cbn in X. injection X as <-. destruct (P _ (or_intror (or_introl eq_refl))) as (s & X & Q). cbn in X. injection X as <-. cbn in Q. destruct Q as (l & X & Q). injection X as <-.
  destruct (Q _ (or_introl eq_refl)) as (u & X & In_ & _). injection X as <-.
  assert (V : forall n, In n [v4 10 1 0 0 16; v4 11 0 0 0 8] -> valid n) by (apply Forall_forall; change (valid_list [v4 10 1 0 0 16; v4 11 0 0 0 8]); valid_tac).
  set (x := (V4, 10 * 2 ^ 24 + 2 ^ 16) : ipaddr). assert (Ax : addressable x) by addr.
  specialize (In_ x Ax (proj2 (range_text (v4 10 1 0 0 16) x (V _ (or_introl eq_refl)) Ax) ltac:(vm_compute; intuition congruence))).
  apply (range_text (v4 11 0 0 0 8) x (V _ (or_intror (or_introl eq_refl))) Ax) in In_. vm_compute in In_. intuition congruence.
Qed.
Print Assumptions C80_exclusions_refuted.

(** Protocol numbers pass, but are no protocol of a resource. *)
Definition knumber : term := Eval vm_compute in set_protocol ["6"] klate.
Theorem C80_number_refuted : exists t, t_protocol t = ["6"] /\ k8_refused t.
Proof.
  exists knumber. split; [reflexivity|]. eexists. split; [vm_compute; reflexivity|]. intros (_ & _ & _ & H). specialize (H Ingress). cbn in H. destruct H as (l & X & H). injection X as <-.
  destruct (H _ (or_introl eq_refl)) as ((l & X & P) & _). cbn in X. injection X as <-. destruct (P _ (or_introl eq_refl)) as ((n & s & X & I) & _). cbn in X. injection X as <-.
  repeat (destruct I as [I|I]; [discriminate I|]). destruct I.
Qed.
Print Assumptions C80_number_refuted.
