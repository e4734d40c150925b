(** Theorems C83: Cisco ASA access lists (ciscoasa.py). *)
From Coq Require Import Lia.
From Verif Require Import SpecAsa Samples BaseFacts PyStrFacts TextProofs CiscoProofs QuietTerm AsaProofs AsaPolicy.
From Verif Require Import PropsPolicy.
Local Open Scope string_scope.
Local Open Scope list_scope.
Local Open Scope Z_scope.

(** ** C83: the access lists decide as the policy says *)

(** The text is a configuration; it has rules only for the lists the headers name, and each of these
    gives an IPv4 packet the outcome of the first term in force that matches, and none if there is
    no such term.  Missing for the full claim: the policies of the refutations below. *)
Theorem C83_lists_decide_as_policy_partial : forall today fs text,
  asa_policy_ok today fs -> asa_text today fs = Ok text ->
  exists rs, asa_config text = Some rs /\ (forall r, In r rs -> exists f, In f fs /\ asa_asks f (fst r)) /\
    forall f name p, In f fs -> asa_asks f name -> asa_traffic p ->
    forall o, asa_list_decides (asa_list rs name) p o <-> terms_decide (fun t => in_force today t /\ term_matches t p) (snd f) o.
Proof. exact asa_lists_decide. Qed.
Print Assumptions C83_lists_decide_as_policy_partial.

(** *** A policy that meets the hypotheses *)
Definition saweb : term := Eval vm_compute in set_logging ["disable"] (set_protocol ["tcp"; "udp"] (set_destination_port [(80, 80); (1024, 65535)] (set_source_port [(20, 53)]
  (set_source_address_exclude [v4 10 0 0 0 9] (set_source_address [v4 10 0 0 0 8; v6 db8 32] (set_destination_address [v4 192 0 2 7 32] (accept "Web"))))))).
Definition saping : term := Eval vm_compute in set_protocol ["icmp"] (set_icmp_type ["echo-reply"; "unreachable"] (set_owner (Some "net-ops") (set_comment ["Pings."] (accept "ping")))).
Definition saold : term := Eval vm_compute in set_expiration (Some 100) (set_verbatim [("ciscoasa", "x")] (accept "old")).
Definition saother : term := Eval vm_compute in set_platform ["juniper"] (set_option ["established"] (accept "other")).
Definition sarest : term := Eval vm_compute in set_logging ["true"] (set_action ["reject"] (blank "rest")).
Definition asa_sample : list (asa_header * list term) :=
  [((Some ["EDGE"], ["Edge" ++ lf ++ "list"]%string), [saold; saweb; saping]); ((Some ["CORE"; "x"], []), [saother; sarest])].
Definition asa_sample_text : string := join lf
  ["clear configure access-list EDGE"; "access-list EDGE remark $Id:$"; "access-list EDGE remark $Date:$"; "access-list EDGE remark $Revision:$";
   "access-list EDGE remark Edge"; "access-list EDGE remark list";
   ""; ""; "access-list EDGE remark Web";
   "access-list EDGE extended permit tcp 10.128.0.0 255.128.0.0 range ftp-data domain host 192.0.2.7 eq www log disable";
   "access-list EDGE extended permit udp 10.128.0.0 255.128.0.0 range 20 domain host 192.0.2.7 eq 80 log disable";
   "access-list EDGE extended permit tcp 10.128.0.0 255.128.0.0 range ftp-data domain host 192.0.2.7 range 1024 65535 log disable";
   "access-list EDGE extended permit udp 10.128.0.0 255.128.0.0 range 20 domain host 192.0.2.7 range 1024 65535 log disable";
   ""; ""; "access-list EDGE remark ping"; "access-list EDGE remark Pings."; "access-list EDGE remark Owner: net-ops";
   "access-list EDGE extended permit icmp any any echo-reply"; "access-list EDGE extended permit icmp any any unreachable";
   "clear configure access-list CORE"; "access-list CORE remark $Id:$"; "access-list CORE remark $Date:$"; "access-list CORE remark $Revision:$"; "";
   ""; ""; "access-list CORE remark rest"; "access-list CORE extended deny ip any any log"].
Ltac asa_ok := match goal with
  | |- exists a r, t_action _ = a :: r /\ _ => eexists; eexists; split; [reflexivity|discriminate]
  | |- one_word _ => reflexivity
  | |- valid_list _ /\ valid_list _ /\ _ => split; [valid_tac|split; [valid_tac|first [reflexivity|discriminate|congruence]]]
  | |- _ /\ _ => repeat split; discriminate
  | |- _ => reflexivity end.
Lemma asa_sample_ok t : In t [saweb; saping; sarest] -> asa_term_ok t.
Proof.
  intros [<-|[<-|[<-|[]]]]; (constructor; try asa_ok).
  - intros q [<-|[<-|[]]]; apply str_in_spec; reflexivity.
  - intros _. split; [discriminate|]. intros q [<-|[<-|[]]]; apply str_in_spec; reflexivity.
  - intros r [<-|[<-|[<-|[]]]]; cbn; lia.
  - intros q [<-|[]]; apply str_in_spec; reflexivity.
  - intros X. destruct (X eq_refl).
  - intros r [].
  - intros q [].
  - intros X. destruct (X eq_refl).
  - intros r [].
Qed.
Example C83_example : asa_policy_ok 100 asa_sample /\ asa_text 100 asa_sample = Ok asa_sample_text.
Proof.
  split; [|vm_compute; reflexivity]. split.
  - intros f [<-|[<-|[]]]; (split; [eexists; split; [eexists; reflexivity|reflexivity]|]); intros t I F M; cbn [snd In] in I.
    + destruct I as [<-|[<-|[<-|[]]]]; [specialize (F 100 eq_refl); lia|apply asa_sample_ok; cbn; auto..].
    + destruct I as [<-|[<-|[]]]; [destruct M as ([X|[X|[]]] & _); discriminate X|apply asa_sample_ok; cbn; auto].
  - intros [|fa [|fa' fa'']] f fb f' fc name E (r & A) (r' & A').
    + destruct fb as [|fb fb']; [|destruct fb'; discriminate E]. cbn [app] in E. unfold asa_sample in E. assert (E1 : f = fst (f, f')) by reflexivity.
      assert (X : hd f asa_sample = f) by (unfold asa_sample; rewrite E; reflexivity). assert (Y : hd f' (tl asa_sample) = f') by (unfold asa_sample; rewrite E; reflexivity).
      cbn in X, Y. subst f f'. cbn in A, A'. congruence.
    + destruct fb; discriminate E.
    + destruct fa''; discriminate E.
Qed.

(** *** Policies whose lists decide differently *)

Definition sapkt (src dst : Z) (proto : string) (sport dport : Z) : packet :=
  mkPacket (V4, src) (V4, dst) proto sport dport "" 0 (fun _ => False)
    (fun _ => False) (fun _ => False) (fun _ => False) (fun _ => False)
    "0" "" 0 64 100 64 "" "" "" "" "" "" "" "inet" "ciscoasa".
Definition asa_gives (text name : string) (p : packet) (o : string) : Prop := exists rs, asa_config text = Some rs /\ asa_list_decides (asa_list rs name) p o.
Ltac asa_traf := split; [reflexivity|]; split; [cbn; lia|]; split; [reflexivity|]; split; [cbn; lia|reflexivity].
Ltac asa_first := exists []; eexists; exists []; split; [reflexivity|]; split; [|intros ? ? []].
(** Established connections: the option is dropped without a word, because the test for the protocol
    compares a name with a number.  New connections are permitted. *)
Theorem C83_established_refuted : exists text p,
  let t := set_option ["tcp-established"] (set_protocol ["tcp"] (accept "t")) in
  asa_text 0 [((Some ["EDGE"], []), [t])] = Ok text /\ asa_traffic p /\ asa_gives text "EDGE" p "permit" /\ ~ term_matches t p.
Proof.
  eexists. exists (sapkt 1 2 "tcp" 99 80). cbv zeta. split; [vm_compute; reflexivity|]. split; [asa_traf|]. split.
  - eexists. split; [vm_compute; reflexivity|]. asa_first. split; [reflexivity|]. split; [cbn; auto|]. split; [right; split; [apply str_in_spec; reflexivity|reflexivity]|]. repeat split. cbn; auto.
  - intros (_ & _ & _ & _ & (_ & X & _) & _). exact (X "tcp-established" (or_introl eq_refl)).
Qed.
Print Assumptions C83_established_refuted.
(** Excluded addresses where no addresses are given. *)
Theorem C83_exclude_refuted : exists text p,
  let t := set_source_address_exclude [v4 10 0 0 0 8] (accept "t") in
  asa_text 0 [((Some ["EDGE"], []), [t])] = Ok text /\ asa_traffic p /\ asa_gives text "EDGE" p "permit" /\ ~ term_matches t p.
Proof.
  eexists. exists (sapkt (10 * 2 ^ 24) 2 "tcp" 99 80). cbv zeta. split; [vm_compute; reflexivity|]. split; [asa_traf|]. split.
  - eexists. split; [vm_compute; reflexivity|]. asa_first. split; [reflexivity|]. split; [cbn; auto|]. split; [left; reflexivity|]. repeat split. cbn; auto.
  - intros ((_ & (_ & X) & _) & _). apply X. exists (v4 10 0 0 0 8). split; [left; reflexivity|]. split; [reflexivity|vm_compute; intuition congruence].
Qed.
Print Assumptions C83_exclude_refuted.
(** A term for icmpv6, alone or with other protocols, gives lines that are no configuration. *)
Theorem C83_icmpv6_refuted : exists text,
  asa_text 0 [((Some ["EDGE"], []), [set_protocol ["tcp"; "icmpv6"] (accept "t")])] = Ok text /\ asa_config text = None.
Proof. eexists. split; vm_compute; reflexivity. Qed.
Print Assumptions C83_icmpv6_refuted.
(** Of verbatim lines only the first is looked at: the second is not written, and neither is the
    only one for this platform if it comes second. *)
Theorem C83_verbatim_refuted : exists text,
  asa_text 0 [((Some ["EDGE"], []), [set_verbatim [("juniper", "x"); ("ciscoasa", "access-list EDGE extended deny ip any any")] (accept "t")])] = Ok text /\
  asa_config text = Some [].
Proof. eexists. split; vm_compute; reflexivity. Qed.
Print Assumptions C83_verbatim_refuted.
(** Headers for other platforms are written as a list called None. *)
Theorem C83_other_header_refuted : exists text rs,
  asa_text 0 [((None, []), [accept "t"])] = Ok text /\ asa_config text = Some rs /\ asa_list rs "None" <> [].
Proof. eexists. eexists. split; [vm_compute; reflexivity|]. split; [vm_compute; reflexivity|]. vm_compute. discriminate. Qed.
Print Assumptions C83_other_header_refuted.
(** Two headers for one list: the second removes what the first wrote. *)
Theorem C83_same_name_refuted : exists text,
  let one := set_action ["deny"] (blank "one") in
  asa_text 0 [((Some ["EDGE"], []), [one]); ((Some ["EDGE"], []), [accept "two"])] = Ok text /\
  forall p, asa_traffic p -> asa_gives text "EDGE" p "permit" /\ terms_decide (fun t => in_force 0 t /\ term_matches t p) [one; accept "two"] "deny".
Proof.
  eexists. cbv zeta. split; [vm_compute; reflexivity|]. intros p T. split.
  - eexists. split; [vm_compute; reflexivity|]. asa_first. split; [reflexivity|]. split; [cbn; auto|]. split; [left; reflexivity|]. repeat split. cbn; auto.
  - exists []. eexists. eexists. split; [reflexivity|]. split; [|intros ? ? []]. split; [|eexists; eexists; split; [reflexivity|reflexivity]]. split; [intros d X; discriminate X|].
    destruct T as (_ & _ & _ & _ & T). apply (quiet_matches "ciscoasa"); [constructor; repeat split; try reflexivity; try (left; reflexivity); intros []|exact T|].
    repeat split; try (left; reflexivity); try (intros o []; fail); intros (? & [] & _).
Qed.
Print Assumptions C83_same_name_refuted.
(** Protocols the device does not know by name give rules that are none. *)
Theorem C83_protocol_refuted : exists text rs,
  asa_text 0 [((Some ["EDGE"], []), [set_protocol ["vrrp"] (accept "t")])] = Ok text /\ asa_config text = Some rs /\ asa_list rs "EDGE" <> [] /\
  forall p o, ~ asa_list_decides (asa_list rs "EDGE") p o.
Proof.
  eexists. eexists. split; [vm_compute; reflexivity|]. split; [vm_compute; reflexivity|]. split; [vm_compute; discriminate|]. intros p o (before & r & after & E & S & _).
  change (asa_list _ "EDGE") with [["permit"; "vrrp"; "any"; "any"]] in E. destruct before as [|b before]; [|destruct before; discriminate E]. cbn [app] in E.
  assert (r = ["permit"; "vrrp"; "any"; "any"]) as -> by congruence. destruct S as (_ & _ & [X|(X & _)] & _); [discriminate X|]. apply str_in_spec in X. discriminate X.
Qed.
Print Assumptions C83_protocol_refuted.
(** The action next is written as a word that is no action. *)
Theorem C83_next_refuted : exists text rs,
  asa_text 0 [((Some ["EDGE"], []), [set_action ["next"] (blank "t")])] = Ok text /\ asa_config text = Some rs /\
  asa_list rs "EDGE" = [["!"; "next"; "ip"; "any"; "any"]].
Proof. eexists. eexists. split; [vm_compute; reflexivity|]. split; [vm_compute; reflexivity|]. vm_compute. reflexivity. Qed.
Print Assumptions C83_next_refuted.
