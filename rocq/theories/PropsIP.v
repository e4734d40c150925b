(** Theorems C01-C10: address lists (capirca/lib/nacaddr.py, utils/iputils.py).
    The vocabulary is in SpecIP.v; the proofs are in CollapseProofs.v,
    CollapseMore.v, ExcludeProofs.v and TokenProofs.v. *)
From Coq Require Import Permutation Sorted Lia.
From Verif Require Import SpecIP Samples IPFacts CollapseProofs CollapseMore ExcludeProofs TokenProofs.
Local Open Scope Z_scope.

Definition mixed_input : list net :=
  [v6 db8 33; v4 10 0 1 0 24; v4 10 0 0 0 24; v4 10 0 0 7 32; v6 (db8 + 0) 32; v4 10 0 2 0 23].

Example mixed_input_valid : valid_list mixed_input.
Proof. valid_tac. Qed.

(** C01 *)
Theorem C01_collapse_preserves_addresses :
  forall addresses complement result,
    valid_list addresses ->
    collapse_addr_list addresses complement = Ok result ->
    forall x, covered result x <-> covered addresses x.
Proof. exact (fun l cs r Hl H => proj2 (collapse_coverage l cs r Hl H)). Qed.
Print Assumptions C01_collapse_preserves_addresses.

Theorem C01_collapse_result_valid :
  forall addresses complement result,
    valid_list addresses ->
    collapse_addr_list addresses complement = Ok result -> valid_list result.
Proof. exact (fun l cs r Hl H => proj1 (collapse_coverage l cs r Hl H)). Qed.
Print Assumptions C01_collapse_result_valid.

Example C01_example :
  collapse_addr_list [v4 10 0 0 0 24; v4 10 0 1 0 24; v4 10 0 2 0 23; v4 10 0 1 0 26] [v4 10 0 1 0 25] =
    Ok [v4 10 0 0 0 23; v4 10 0 1 0 26; v4 10 0 2 0 23] /\
  collapse_addr_list mixed_input [] = Ok [v4 10 0 0 0 22; v6 db8 32].
Proof. vm_compute. auto. Qed.

(** C02 *)
Theorem C02_collapse_canonical :
  forall addresses, valid_list addresses ->
    exists result, collapse_addr_list addresses [] = Ok result /\ valid_list result /\
      StronglySorted before result /\
      (forall a b, In a result -> In b result -> ~ siblings a b).
Proof. exact collapse_total_canonical. Qed.
Print Assumptions C02_collapse_canonical.

Theorem C02_collapse_depends_only_on_addresses :
  forall l1 l2 r1 r2, valid_list l1 -> valid_list l2 ->
    (forall x, covered l1 x <-> covered l2 x) ->
    collapse_addr_list l1 [] = Ok r1 -> collapse_addr_list l2 [] = Ok r2 ->
    map prefix_of r1 = map prefix_of r2.
Proof. exact (fun l1 l2 r1 r2 V1 V2 Hc H1 H2 => collapse_canonical_eq l1 l2 r1 r2 V1 V2 H1 H2 Hc). Qed.
Print Assumptions C02_collapse_depends_only_on_addresses.

(** Minimality: no list of networks with the same coverage is shorter. *)
Theorem C02_collapse_shortest :
  forall l r other, valid_list l -> valid_list other ->
    collapse_addr_list l [] = Ok r ->
    (forall x, covered other x <-> covered l x) ->
    (List.length r <= List.length other)%nat.
Proof. exact collapse_shortest. Qed.
Print Assumptions C02_collapse_shortest.

Example C02_example :
  let l2 := [v4 10 0 0 0 22; v6 db8 33; v6 (db8 + 0) 32; v4 10 0 3 255 32] in
  valid_list l2 /\ (exists r, collapse_addr_list l2 [] = Ok r /\
    map prefix_of r = map prefix_of [v4 10 0 0 0 22; v6 db8 32]).
Proof. split; [valid_tac|]. eexists. split; [vm_compute; reflexivity|reflexivity]. Qed.

(** C03: true without an exclusion list (C02_collapse_canonical) and for one
    family; false in general. *)
Theorem C03_collapse_never_raises_refuted :
  exists addresses complement, valid_list addresses /\ valid_list complement /\
    collapse_addr_list addresses complement = Raise (Exn "TypeError").
Proof.
  exists [v4 10 0 0 0 8; v6 db8 32], [v6 db8 48]. split; [valid_tac|]. split; [valid_tac|].
  vm_compute. reflexivity.
Qed.
Print Assumptions C03_collapse_never_raises_refuted.

Theorem C03_collapse_never_raises_partial :
  forall addresses complement, valid_list addresses ->
    complement = [] \/ (exists v, Forall (fun n => nver n = v) addresses) ->
    exists result, collapse_addr_list addresses complement = Ok result.
Proof. exact collapse_never_raises_partial. Qed.
Print Assumptions C03_collapse_never_raises_partial.

Example C03_example : exists r,
  collapse_addr_list [v4 10 0 0 0 24; v4 10 0 1 0 24] [v6 db8 48; v4 10 0 0 0 24; v4 10 0 1 0 23] = Ok r
  /\ List.length r = 1%nat.
Proof. eexists. vm_compute. split; reflexivity. Qed.

(** C04 *)
Theorem C04_collapse_keeps_verdict_refuted :
  exists addresses exclusions result x, valid_list addresses /\ valid_list exclusions /\
    collapse_addr_list addresses exclusions = Ok result /\
    specific_match addresses exclusions x /\ ~ specific_match result exclusions x.
Proof.
  exists [v4 10 0 0 0 8; v4 10 0 1 0 24], [v4 10 0 0 0 9], [v4 10 0 0 0 8], (V4, naddr (v4 10 0 1 0 24)).
  split; [valid_tac|]. split; [valid_tac|]. split; [vm_compute; reflexivity|]. split.
  - exists (v4 10 0 1 0 24). split; [simpl; auto|]. split; [split; [reflexivity|vm_compute; intuition congruence]|].
    intros e [<-|[]] _. reflexivity.
  - intros (n & [<-|[]] & _ & H). specialize (H (v4 10 0 0 0 9) (or_introl eq_refl)).
    vm_compute in H. assert (W : Lt = Gt \/ True) by auto.
    discriminate H. split; [reflexivity|split; congruence].
Qed.
Print Assumptions C04_collapse_keeps_verdict_refuted.

(** No address becomes matched, ever; and nothing changes when no listed network
    lies entirely inside an exclusion. *)
Theorem C04_collapse_never_widens_partial :
  forall addresses exclusions result, valid_list addresses ->
    collapse_addr_list addresses exclusions = Ok result ->
    forall x, specific_match result exclusions x -> specific_match addresses exclusions x.
Proof. exact collapse_specific_sound. Qed.
Print Assumptions C04_collapse_never_widens_partial.

Theorem C04_collapse_keeps_verdict_partial :
  forall addresses exclusions result, valid_list addresses -> valid_list exclusions ->
    collapse_addr_list addresses exclusions = Ok result ->
    (forall a e, In a addresses -> In e exclusions ->
       (forall x, covers a x -> covers e x) -> naddr e = naddr a) ->
    forall x, specific_match result exclusions x <-> specific_match addresses exclusions x.
Proof. exact collapse_keeps_verdict. Qed.
Print Assumptions C04_collapse_keeps_verdict_partial.

Example C04_example :
  let l := [v4 10 0 0 0 8; v4 10 0 0 0 24; v4 10 9 0 0 16] in let ex := [v4 10 0 0 0 16] in
  collapse_addr_list l ex = Ok l /\
  (forall a e, In a l -> In e ex -> (forall x, covers a x -> covers e x) -> naddr e = naddr a).
Proof.
  split; [vm_compute; reflexivity|]. intros a e [<-|[<-|[<-|[]]]] [<-|[]] H; [reflexivity|reflexivity|exfalso].
  destruct (H (V4, naddr (v4 10 9 0 0 16))) as [_ H'].
  - split; [reflexivity|vm_compute; intuition congruence].
  - vm_compute in H'. destruct H' as [_ H']. discriminate H'.
Qed.

(** C05 *)
Theorem C05_collapse_keeps_comments :
  forall addresses complement result, valid_list addresses ->
    collapse_addr_list addresses complement = Ok result ->
    forall a, In a addresses ->
      exists n, In n result /\ (forall x, covers a x -> covers n x) /\
                contains (ntext n) (ntext a).
Proof. exact collapse_rep. Qed.
Print Assumptions C05_collapse_keeps_comments.

Example C05_example :
  collapse_addr_list [v4t 10 0 1 0 24 "web" "W" "W"; v4t 10 0 0 0 24 "dns" "D" "D"] []
  = Ok [v4t 10 0 0 0 23 "dns, web" "D" "D"].
Proof. vm_compute. reflexivity. Qed.

(** C06 *)
Theorem C06_remove_address_exact :
  forall superset exclude, valid_list superset -> valid exclude ->
    exists result, remove_address_from_list superset exclude = Ok result /\
      valid_list result /\ StronglySorted key_le result /\
      forall x, covered result x <-> covered superset x /\ ~ covers exclude x.
Proof. exact remove_address_spec. Qed.
Print Assumptions C06_remove_address_exact.

Example C06_example :
  remove_address_from_list [v4 10 0 0 0 30; v6 db8 32] (v4 10 0 0 1 32)
  = Ok [v4 10 0 0 0 32; v4 10 0 0 2 31; v6 db8 32].
Proof. vm_compute. reflexivity. Qed.

(** C07 *)
Theorem C07_exclude_list_exact :
  forall superset excludes, valid_list superset -> valid_list excludes ->
    exists result, address_list_exclude superset excludes true = Ok result /\
      valid_list result /\ canonical result /\
      forall x, covered result x <-> covered superset x /\ ~ covered excludes x.
Proof. exact address_list_exclude_spec. Qed.
Print Assumptions C07_exclude_list_exact.

Theorem C07_exclude_nocollapse_refuted :
  exists superset excludes result x, valid_list superset /\ valid_list excludes /\
    address_list_exclude superset excludes false = Ok result /\
    covered result x /\ covered excludes x.
Proof.
  exists [v4 10 0 0 0 8; v4 10 0 0 0 24], [v4 10 0 0 0 16]. eexists. exists (V4, naddr (v4 10 0 0 0 8)).
  split; [valid_tac|]. split; [valid_tac|]. split; [vm_compute; reflexivity|]. split.
  - exists (v4 10 0 0 0 24). split; [simpl; auto|]. split; [reflexivity|vm_compute; intuition congruence].
  - exists (v4 10 0 0 0 16). split; [simpl; auto|]. split; [reflexivity|vm_compute; intuition congruence].
Qed.
Print Assumptions C07_exclude_nocollapse_refuted.

(** With collapse_addrs=False: exact when the superset has no overlapping networks
    and each list is of one family. *)
Theorem C07_exclude_nocollapse_partial :
  forall v superset excludes, valid_list superset -> valid_list excludes ->
    Forall (fun n => nver n = v) superset ->
    (forall n m, In n excludes -> In m excludes -> nver n = nver m) ->
    pairwise_disjoint superset ->
    exists result, address_list_exclude superset excludes false = Ok result /\ valid_list result /\
      forall x, covered result x <-> covered superset x /\ ~ covered excludes x.
Proof. exact exclude_nocollapse_partial. Qed.
Print Assumptions C07_exclude_nocollapse_partial.

Example C07_example :
  address_list_exclude [v4 10 0 0 0 8; v6 db8 32; v4 10 0 0 0 24] [v4 10 128 0 0 9; v4 10 0 0 0 10; v6 db8 33] true
  = Ok [v4 10 64 0 0 10; plain V6 (db8 * 2 ^ 96 + 2 ^ 95) 33] /\
  address_list_exclude [v4 10 0 1 0 24; v4 10 0 0 0 24] [v4 10 0 0 0 25; v4 10 0 0 0 26] false
  = Ok [v4 10 0 0 128 25; v4 10 0 1 0 24].
Proof. vm_compute. auto. Qed.

(** C08 *)
Theorem C08_preserve_tokens_coverage :
  forall addresses, valid_list addresses ->
    exists result, collapse_preserve_tokens addresses = Ok result /\ valid_list result /\
      forall x, covered result x <-> covered addresses x.
Proof. exact preserve_tokens_coverage. Qed.
Print Assumptions C08_preserve_tokens_coverage.

(** A merged network takes the defining token, not the requested one. *)
Theorem C08_preserve_tokens_attribution_refuted :
  exists addresses result n, valid_list addresses /\
    collapse_preserve_tokens addresses = Ok result /\ In n result /\
    ~ (exists m, In m addresses /\ nptoken m = nptoken n).
Proof.
  exists [v4t 10 0 0 0 24 "" "LAB" "CORP"; v4t 10 0 1 0 24 "" "LAB" "CORP"]. eexists.
  exists (v4t 10 0 0 0 23 "" "LAB" "LAB"). split; [valid_tac|]. split; [vm_compute; reflexivity|].
  split; [left; reflexivity|]. intros (m & [<-|[<-|[]]] & H); discriminate H.
Qed.
Print Assumptions C08_preserve_tokens_attribution_refuted.

(** When every network was requested through the token that defines it, each
    address of a returned network was given under that network's token. *)
Theorem C08_preserve_tokens_attribution_partial :
  forall addresses result, valid_list addresses ->
    (forall n, In n addresses -> ntoken n = nptoken n) ->
    collapse_preserve_tokens addresses = Ok result ->
    forall n x, In n result -> covers n x ->
      exists m, In m addresses /\ nptoken m = nptoken n /\ covers m x.
Proof. exact preserve_tokens_attribution. Qed.
Print Assumptions C08_preserve_tokens_attribution_partial.

Example C08_example :
  collapse_preserve_tokens [v4t 10 0 1 0 24 "" "B" "B"; v4t 10 0 0 0 24 "" "A" "A";
                            v4t 10 0 0 0 8 "" "C" "C"; v4t 11 0 0 0 8 "" "B" "B"]
  = Ok [v4t 10 0 1 0 24 "" "B" "B"; v4t 11 0 0 0 8 "" "B" "B"; v4t 10 0 0 0 8 "" "C" "C"].
Proof. vm_compute. reflexivity. Qed.

(** The containment test used by shade detection and de-duplication. *)
Theorem C08_is_super_net_sound :
  forall supernets subnets, valid_list supernets -> valid_list subnets ->
    is_super_net supernets subnets = true ->
    forall x, covered subnets x -> covered supernets x.
Proof. exact is_super_net_covered. Qed.
Print Assumptions C08_is_super_net_sound.

Theorem C08_is_super_net_complete :
  forall supernets subnets, valid_list supernets -> valid_list subnets -> canonical supernets ->
    (forall x, covered subnets x -> covered supernets x) ->
    is_super_net supernets subnets = true.
Proof. exact is_super_net_complete. Qed.
Print Assumptions C08_is_super_net_complete.

Example C08_super_example :
  is_super_net [v4 10 0 0 0 8; v6 db8 32] [v4 10 1 0 0 16; v6 db8 48] = true /\
  is_super_net [v4 10 0 0 0 9] [v4 10 1 0 0 16; v4 10 0 0 0 8] = false.
Proof. vm_compute. auto. Qed.

(** C09 *)
Theorem C09_exclude_address_partition :
  forall base exclude, valid base -> valid exclude ->
    (forall x, covers exclude x -> covers base x) ->
    exists result, exclude_address base exclude = Ok result /\ valid_list result /\
      StronglySorted before result /\
      Forall (fun n => nver n = nver base) result /\
      forall x, covered result x <-> covers base x /\ ~ covers exclude x.
Proof. exact exclude_address_partition. Qed.
Print Assumptions C09_exclude_address_partition.

Theorem C09_exclude_address_outside_raises :
  forall base exclude, valid base -> valid exclude ->
    (exists x, covers exclude x /\ ~ covers base x) ->
    exists e, exclude_address base exclude = Raise (Exn e).
Proof. exact exclude_address_outside. Qed.
Print Assumptions C09_exclude_address_outside_raises.

Example C09_example :
  exclude_address (v4 255 255 255 252 30) (v4 255 255 255 255 32)
  = Ok [v4 255 255 255 252 31; v4 255 255 255 254 32].
Proof. vm_compute. reflexivity. Qed.

(** C10 *)
Theorem C10_sort_addr_list :
  forall l, valid_list l ->
    Permutation (sort_addr_list l) l /\ StronglySorted key_le (sort_addr_list l).
Proof. exact sort_addr_list_spec. Qed.
Print Assumptions C10_sort_addr_list.

Example C10_example :
  sort_addr_list [v6 db8 32; v4 10 0 0 0 24; v4 10 0 0 0 8; v4 9 0 0 0 8]
  = [v4 9 0 0 0 8; v4 10 0 0 0 8; v4 10 0 0 0 24; v6 db8 32].
Proof. vm_compute. reflexivity. Qed.
