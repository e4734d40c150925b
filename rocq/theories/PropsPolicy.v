(** Properties of policy terms: shading (C14), clean-up (C48), sanity checks (C49),
    flattening (C50), translation (C51). *)
From Coq Require Import Lia.
From Verif Require Import SpecPolicy Samples PolicyProofs LoadProofs.
Local Open Scope string_scope.
Local Open Scope list_scope.
Local Open Scope Z_scope.

(** A packet and terms for the examples. *)
Definition pkt (src dst : Z) (proto : string) (sport dport : Z) : packet :=
  mkPacket (V4, src) (V4, dst) proto sport dport "" 0 (fun _ => False)
    (fun _ => False) (fun _ => False) (fun _ => False) (fun _ => False)
    "0" "" 0 64 100 64 "" "" "" "" "" "" "" "inet" "cisco".
Definition ten (b c d : Z) : Z := ((10 * 256 + b) * 256 + c) * 256 + d.
Definition accept (name : string) : term := set_action ["accept"] (blank name).

Ltac easy_match := unfold term_matches, addresses_match, protocols_match, all_ports_match, prefixes_match,
  options_match, numbers_match, icmp_match, place_matches, link_matches, either_matches, side_matches,
  any_or, none_of, ports_match, text_range, opt_eq, covered; cbn;
  repeat match goal with
  | |- _ /\ _ => split
  | |- True => exact I
  | |- _ => solve [left; reflexivity | left; left; reflexivity | left; split; reflexivity | intros ? [] | intros (? & [] & _)
                   | reflexivity]
  end.
Ltac flat := split; [reflexivity|]; split; [reflexivity|]; split; [reflexivity|]; split; [reflexivity|];
  split; [|split]; (split; [valid_tac|]; split; [valid_tac|]; left; reflexivity).

(** ** C14 Shading *)

(** The reported pairs are exactly the pairs (later, earlier) of terms of which the
    containment test says that the earlier one, whose action is not "next", contains
    the later one. *)
Theorem C14_shading_reports_contained_pairs :
  forall terms after pairs, Forall flat_term terms ->
    shade_scan [] terms = Ok (after, pairs) ->
    forall later earlier, In (later, earlier) pairs <->
      exists u e v l w, terms = u ++ e :: v ++ l :: w /\ t_name l = later /\ t_name e = earlier /\ hides e l.
Proof. exact shade_scan_pairs. Qed.
Print Assumptions C14_shading_reports_contained_pairs.

(** Rejected means some term is contained in an earlier one, accepted means none is. *)
Theorem C14_shading_verdict :
  forall terms, Forall flat_term terms ->
    (detect_shading terms = Raise (Exn "ShadingError") ->
       exists u e v l w, terms = u ++ e :: v ++ l :: w /\ hides e l) /\
    (forall after, detect_shading terms = Ok after ->
       forall u e v l w, terms = u ++ e :: v ++ l :: w -> ~ hides e l).
Proof. exact detect_shading_iff. Qed.
Print Assumptions C14_shading_verdict.

(** Soundness is false: protocols are compared the wrong way round. *)
Theorem C14_shading_sound_refuted :
  exists e l p, Forall flat_term [e; l] /\
    detect_shading [e; l] = Raise (Exn "ShadingError") /\
    term_matches l p /\ ~ term_matches e p.
Proof.
  exists (set_protocol ["tcp"] (accept "web")), (set_protocol ["tcp"; "udp"] (accept "dns")),
    (pkt (ten 0 0 1) (ten 0 0 2) "udp" 1024 53).
  split. { constructor; [flat|]. constructor; [flat|]. constructor. }
  split; [vm_compute; reflexivity|]. split.
  - easy_match. right. exists "udp". split; [right; left; reflexivity|reflexivity].
  - intros (_ & ([H|(a & [<-|[]] & H)] & _) & _); discriminate H.
Qed.
Print Assumptions C14_shading_sound_refuted.

(** An earlier term that demands more options "contains" one that demands fewer. *)
Theorem C14_shading_sound_options_refuted :
  exists e l p, Forall flat_term [e; l] /\
    detect_shading [e; l] = Raise (Exn "ShadingError") /\
    term_matches l p /\ ~ term_matches e p.
Proof.
  exists (set_option ["tcp-established"; "first-fragment"] (set_protocol ["tcp"] (accept "a"))),
    (set_option ["tcp-established"] (set_protocol ["tcp"] (accept "b"))),
    (mkPacket (V4, ten 0 0 1) (V4, ten 0 0 2) "tcp" 1 2 "" 0 (eq "tcp-established")
    (fun _ => False) (fun _ => False) (fun _ => False) (fun _ => False)
    "0" "" 0 64 100 64 "" "" "" "" "" "" "" "inet" "cisco").
  split. { constructor; [flat|]. constructor; [flat|]. constructor. }
  split; [vm_compute; reflexivity|]. split.
  - easy_match; [right; exists "tcp"; split; [left; reflexivity|reflexivity]|]. intros o [<-|[]]. reflexivity.
  - intros (_ & _ & _ & _ & (_ & H & _) & _). specialize (H "first-fragment" (or_intror (or_introl eq_refl))). discriminate H.
Qed.
Print Assumptions C14_shading_sound_options_refuted.

(** Some match conditions are not compared at all. *)
Theorem C14_shading_sound_ttl_refuted :
  exists e l p, Forall flat_term [e; l] /\
    detect_shading [e; l] = Raise (Exn "ShadingError") /\
    term_matches l p /\ ~ term_matches e p.
Proof.
  exists (set_ttl (Some 10) (accept "a")), (accept "b"), (pkt (ten 0 0 1) (ten 0 0 2) "udp" 1024 53).
  split. { constructor; [flat|]. constructor; [flat|]. constructor. }
  split; [vm_compute; reflexivity|]. split.
  - easy_match.
  - intros (_ & _ & _ & _ & _ & (_ & _ & _ & H) & _). cbn in H. discriminate H.
Qed.
Print Assumptions C14_shading_sound_ttl_refuted.

(** With a source exclusion the destination of the earlier term is ignored. *)
Theorem C14_shading_sound_exclusion_refuted :
  exists e l p, Forall flat_term [e; l] /\
    detect_shading [e; l] = Raise (Exn "ShadingError") /\
    term_matches l p /\ ~ term_matches e p.
Proof.
  exists (set_source_address [v4 10 0 0 0 8] (set_source_address_exclude [v4 10 9 0 0 16]
            (set_destination_address [v4 10 1 0 0 16] (accept "a")))),
    (set_source_address [v4 10 2 0 0 16] (set_destination_address [v4 10 3 0 0 16] (accept "b"))),
    (pkt (ten 2 0 1) (ten 3 0 2) "udp" 1024 53).
  assert (D : forall n, pairwise_disjoint [n]) by (intros n; constructor; [constructor|constructor]).
  split. { constructor; [|constructor; [flat|constructor]].
    split; [reflexivity|]. split; [reflexivity|]. split; [reflexivity|]. split; [reflexivity|].
    split; [|split]; (split; [valid_tac|]; split; [valid_tac|]); try (left; reflexivity).
    right. split; [|split; [|apply D]]; intros n m [<-|[]] [<-|[]]; reflexivity. }
  split; [vm_compute; reflexivity|]. split.
  - easy_match; right; [exists (v4 10 2 0 0 16)|exists (v4 10 3 0 0 16)];
      (split; [left; reflexivity|split; [reflexivity|vm_compute; split; [discriminate|reflexivity]]]).
  - intros ((_ & _ & [[H|(n & [<-|[]] & _ & H)] _]) & _); [discriminate H|].
    vm_compute in H. destruct H as [_ H]. discriminate H.
Qed.
Print Assumptions C14_shading_sound_exclusion_refuted.

(** The part that holds: for terms comparable in the sense of SpecPolicy, with an earlier
    term whose exclusions are complete, everything the later term matches is matched by
    the earlier one.  Missing: the fields of the witnesses above. *)
Theorem C14_shading_sound_partial :
  forall e l, flat_term e -> flat_term l -> plain_or_full e -> comparable e l ->
    hides e l -> forall p, term_matches l p -> term_matches e p.
Proof. intros e l Fe Fl Pe C (_ & r & H). exact (term_contains_sound e l r Fe Fl Pe C H). Qed.
Print Assumptions C14_shading_sound_partial.

(** Put together: a rejected policy whose terms are pairwise comparable has an unreachable term. *)
Theorem C14_rejected_policy_has_dead_term_partial :
  forall terms, Forall flat_term terms -> Forall plain_or_full terms ->
    (forall u e v l w, terms = u ++ e :: v ++ l :: w -> comparable e l) ->
    detect_shading terms = Raise (Exn "ShadingError") ->
    exists u e v l w, terms = u ++ e :: v ++ l :: w /\ ~ In "next" (t_action e) /\
      forall p, term_matches l p -> term_matches e p.
Proof.
  intros ts F P C H. destruct (proj1 (detect_shading_iff ts F) H) as (u & e & v & l & w & E & Hh).
  exists u, e, v, l, w. split; [assumption|]. split; [exact (proj1 Hh)|].
  assert (Ie : In e ts) by (rewrite E; apply in_or_app; right; left; reflexivity).
  assert (Il : In l ts) by (rewrite E; apply in_or_app; right; right; apply in_or_app; right; left; reflexivity).
  rewrite Forall_forall in F, P. apply C14_shading_sound_partial; eauto.
Qed.
Print Assumptions C14_rejected_policy_has_dead_term_partial.

Definition ex_earlier : term :=
  set_source_address [v4 10 0 0 0 8] (set_source_address_exclude [v4 10 9 0 0 16]
    (set_destination_port [(1, 100)] (set_protocol ["tcp"] (set_fragment_offset (Some "1-20") (accept "wide"))))).
Definition ex_later : term :=
  set_source_address [v4 10 2 0 0 16; v4 10 3 0 0 16]
    (set_destination_port [(22, 22); (80, 80)] (set_protocol ["tcp"] (set_fragment_offset (Some "2-10") (accept "narrow")))).
Example C14_example :
  flat_term ex_earlier /\ flat_term ex_later /\ plain_or_full ex_earlier /\ comparable ex_earlier ex_later /\
  hides ex_earlier ex_later /\ detect_shading [ex_earlier; ex_later] = Raise (Exn "ShadingError") /\
  detect_shading [ex_later; set_translated true (set_protocol ["udp"] (blank "u"))] <> Raise (Exn "ShadingError").
Proof.
  assert (D : forall n, pairwise_disjoint [n]) by (intros n; constructor; [constructor|constructor]).
  split. { split; [reflexivity|]. split; [reflexivity|]. split; [reflexivity|]. split; [reflexivity|].
    split; [|split]; (split; [valid_tac|]; split; [valid_tac|]); try (left; reflexivity).
    right. split; [|split; [|apply D]]; intros n m [<-|[]] [<-|[]]; reflexivity. }
  split; [flat|]. split.
  { right. intros inc exc [[= <- <-]|[[= <- <-]|[[= <- <-]|[]]]]; [left; auto| |left; auto].
    right. split; [discriminate|]. exists (V4, ten 2 0 0). split.
    - exists (v4 10 0 0 0 8). split; [left; reflexivity|]. split; [reflexivity|vm_compute; split; [discriminate|reflexivity]].
    - intros (n & [<-|[]] & _ & H). vm_compute in H. destruct H as [H _]. apply H. reflexivity. }
  split. { constructor; cbn; unfold not_longer; auto.
    - split; [repeat constructor; simpl; tauto|simpl; lia].
    - split; [constructor|simpl; lia].
    - split; [constructor|simpl; lia].
    - right. right. exists "1-20", "2-10", 1, 20, 2, 10. split; [reflexivity|]. split; [reflexivity|].
      split; [exists "1", "20"; auto|]. split; [lia|]. exists "2", "10"; auto. }
  split. { split; [cbn; intros [H|[]]; discriminate H|]. eexists. vm_compute. reflexivity. }
  split; [vm_compute; reflexivity|vm_compute; discriminate].
Qed.

(** ** C48 Address and port clean-up *)

Theorem C48_cleanup_preserves_matching :
  forall optimize addressbook t t', term_valid t -> address_cleanup optimize addressbook t = Ok t' ->
    forall p, term_matches t' p <-> term_matches t p.
Proof. exact address_cleanup_meaning. Qed.
Print Assumptions C48_cleanup_preserves_matching.

(** It can fail: optimising a list with both families and exclusions raises TypeError. *)
Theorem C48_cleanup_total_refuted :
  exists t, term_valid t /\ address_cleanup true false t = Raise (Exn "TypeError").
Proof.
  exists (set_source_address [v4 10 0 0 0 8; v6 db8 32] (set_source_address_exclude [v6 db8 48] (accept "a"))).
  split; [|vm_compute; reflexivity]. unfold term_valid. cbn. repeat (split; [valid_tac|]). valid_tac.
Qed.
Print Assumptions C48_cleanup_total_refuted.

Theorem C48_cleanup_total_partial :
  forall optimize addressbook t, term_valid t ->
    (optimize = false \/ addressbook = true \/
     (one_family (t_source_address t) /\ one_family (t_source_address_exclude t) /\
      one_family (t_destination_address t) /\ one_family (t_destination_address_exclude t))) ->
    exists t', address_cleanup optimize addressbook t = Ok t'.
Proof. exact address_cleanup_total. Qed.
Print Assumptions C48_cleanup_total_partial.

Example C48_example :
  let t := set_source_address [v4 10 0 1 0 24; v4 10 0 0 0 24; v4 10 0 0 7 32]
             (set_source_address_exclude [v4 10 0 0 1 32; v4 10 0 0 0 32]
               (set_destination_port [(80, 90); (22, 22); (85, 100)] (accept "a"))) in
  term_valid t /\
  address_cleanup true false t =
    Ok (set_source_address [v4 10 0 0 0 23]
         (set_source_address_exclude [v4 10 0 0 0 31]
           (set_destination_port [(22, 22); (80, 100)] (accept "a")))).
Proof.
  split; [|vm_compute; reflexivity]. unfold term_valid. cbn. repeat (split; [valid_tac|]). valid_tac.
Qed.

(** ** C49 Sanity checks *)

Theorem C49_sanity_check_exact : forall t, sanity_check t = Ok tt <-> acceptable t.
Proof. exact sanity_check_iff. Qed.
Print Assumptions C49_sanity_check_exact.

(** A rejected term is not always reported with a policy error: a code for an ICMP type
    that has none ends in KeyError. *)
Theorem C49_rejections_are_policy_errors_refuted :
  exists t, ~ acceptable t /\ sanity_check t = Raise (Exn "KeyError").
Proof.
  exists (set_icmp_code [0] (set_icmp_type ["echo-request"] (set_protocol ["icmp"] (accept "ping")))).
  split; [|vm_compute; reflexivity]. rewrite <- sanity_check_iff. vm_compute. discriminate.
Qed.
Print Assumptions C49_rejections_are_policy_errors_refuted.

Theorem C49_rejections_are_policy_errors_partial :
  forall t e, sanity_check t = Raise e ->
    (exists n, e = Exn n /\ In n policy_errors) \/
    (e = Exn "KeyError" /\ t_icmp_code t <> [] /\ exists n, t_icmp_type t = [n] /\ icmp_code_table n = None).
Proof. exact sanity_errors. Qed.
Print Assumptions C49_rejections_are_policy_errors_partial.

Example C49_example :
  sanity_check (set_destination_port [(80, 80)] (set_protocol ["tcp"] (accept "web"))) = Ok tt /\
  sanity_check (set_destination_port [(80, 80)] (set_protocol ["tcp"; "icmp"] (accept "web")))
    = Raise (Exn "MixedPortandNonPortProtos") /\
  sanity_check (set_icmp_code [3] (set_icmp_type ["unreachable"] (set_protocol ["icmp"] (accept "u")))) = Ok tt /\
  sanity_check (blank "nothing") = Raise (Exn "TermNoActionError") /\
  sanity_check (set_ttl (Some 256) (accept "t")) = Raise (Exn "InvalidTermTTLValue").
Proof. vm_compute. repeat split. Qed.

(** ** C50 Flattening *)

(** Taking exclusions out of the address lists changes what a term matches when they
    take away everything: the emptied list then means "any". *)
Theorem C50_flattening_preserves_matching_refuted :
  exists t t' p, flat_term t /\ flatten_all t = Ok t' /\ term_matches t' p /\ ~ term_matches t p.
Proof.
  exists (set_source_address [v4 10 1 0 0 16] (set_source_address_exclude [v4 10 0 0 0 8] (accept "none"))).
  eexists. exists (pkt (11 * 2 ^ 24) (ten 3 0 2) "udp" 1024 53).
  assert (D : forall n, pairwise_disjoint [n]) by (intros n; constructor; [constructor|constructor]).
  split. { split; [reflexivity|]. split; [reflexivity|]. split; [reflexivity|]. split; [reflexivity|].
    split; [|split]; (split; [valid_tac|]; split; [valid_tac|]); try (left; reflexivity).
    right. split; [|split; [|apply D]]; intros n m [<-|[]] [<-|[]]; reflexivity. }
  split; [vm_compute; reflexivity|]. split.
  - easy_match. intros (n & [<-|[]] & _ & H). vm_compute in H. destruct H as [_ H]. discriminate H.
  - intros ((_ & [[H|(n & [<-|[]] & _ & H)] _] & _) & _); [discriminate H|].
    vm_compute in H. destruct H as [_ H]. discriminate H.
Qed.
Print Assumptions C50_flattening_preserves_matching_refuted.

Theorem C50_flattening_preserves_matching_partial :
  forall t t', flat_term t -> nothing_emptied t -> flatten_all t = Ok t' ->
    forall p, term_matches t' p <-> term_matches t p.
Proof. exact flatten_meaning. Qed.
Print Assumptions C50_flattening_preserves_matching_partial.

(** Flattening a list with both families raises TypeError. *)
Theorem C50_flattening_total_refuted :
  exists t, term_valid t /\ t_flattened t = false /\ flatten_all t = Raise (Exn "TypeError").
Proof.
  exists (set_source_address [v4 10 0 0 0 8; v6 db8 32] (set_source_address_exclude [v6 db8 48] (accept "a"))).
  split; [|split; vm_compute; reflexivity]. unfold term_valid. cbn. repeat (split; [valid_tac|]). valid_tac.
Qed.
Print Assumptions C50_flattening_total_refuted.

Example C50_example :
  flat_term ex_earlier /\ nothing_emptied ex_earlier /\
  exists t', flatten_all ex_earlier = Ok t' /\
    t_source_address t' = [v4 10 0 0 0 13; v4 10 8 0 0 16; v4 10 10 0 0 15; v4 10 12 0 0 14;
                           v4 10 16 0 0 12; v4 10 32 0 0 11; v4 10 64 0 0 10; v4 10 128 0 0 9].
Proof.
  split; [exact (proj1 C14_example)|]. split.
  - split; [intros H; destruct (H eq_refl)|]. split; [|intros H; destruct (H eq_refl)].
    intros _ _. destruct C14_example as (_ & _ & [(_ & H & _)|H] & _); [discriminate H|].
    destruct (H _ _ (or_intror (or_introl eq_refl))) as [[E _]|[_ H']]; [discriminate E|exact H'].
  - eexists. split; vm_compute; reflexivity.
Qed.

(** ** C51 Translation *)

(** A parsed term that is accepted matches what it says, its port names read through
    the service definitions. *)
Theorem C51_translated_term_matches_its_text :
  forall svc net st fuel optimize addressbook r t, load svc net = Ok st -> term_valid (r_term r) ->
    t_port (r_term r) = [] -> t_source_port (r_term r) = [] -> t_destination_port (r_term r) = [] ->
    translate_term fuel (n_services st) optimize addressbook r = Ok t ->
    acceptable t /\
    forall p, term_matches t p <-> term_matches (r_term r) p /\
      (named_ports (n_services st) (r_port r) (t_protocol (r_term r)) (p_sport p) \/
       named_ports (n_services st) (r_port r) (t_protocol (r_term r)) (p_dport p)) /\
      named_ports (n_services st) (r_source_port r) (t_protocol (r_term r)) (p_sport p) /\
      named_ports (n_services st) (r_destination_port r) (t_protocol (r_term r)) (p_dport p).
Proof.
  intros svc net st fuel o b r t Hl. exact (translate_term_spec fuel (n_services st) o b r t (proj1 (load_wf _ _ _ Hl))).
Qed.
Print Assumptions C51_translated_term_matches_its_text.

(** Ports without a protocol are always rejected. *)
Theorem C51_ports_need_a_protocol :
  forall fuel services optimize addressbook r, t_protocol (r_term r) = [] ->
    r_port r <> [] \/ r_source_port r <> [] \/ r_destination_port r <> [] ->
    translate_term fuel services optimize addressbook r = Raise (Exn "TermPortProtocolError").
Proof. exact translate_no_protocol. Qed.
Print Assumptions C51_ports_need_a_protocol.

Example C51_example :
  exists st, load ["WEB = HTTP 8080-8090/tcp"; "HTTP = 80/tcp 80/udp"] [] = Ok st /\
  translate_term 5 (n_services st) true false
    (mkRaw [] [] ["WEB"] (set_protocol ["tcp"] (accept "web")))
  = Ok (set_translated true (set_destination_port [(80, 80); (8080, 8090)] (set_protocol ["tcp"] (accept "web")))) /\
  translate_term 5 (n_services st) true false
    (mkRaw [] [] ["WEB"] (set_protocol ["sctp"] (accept "web"))) = Raise (Exn "TermPortProtocolError").
Proof. eexists. split; [vm_compute; reflexivity|]. split; vm_compute; reflexivity. Qed.
