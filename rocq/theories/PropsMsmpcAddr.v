(** Theorems C98: the addresses of MS-MPC rules (junipermsmpc.py). *)
From Coq Require Import Lia ZifyBool ZifyNat.
From Verif Require Import Samples BaseFacts IPFacts JuniperText JuniperProofs SpecMsmpcAddr MsmpcAddr.
Local Open Scope string_scope.
Local Open Scope list_scope.
Local Open Scope Z_scope.

(** ** C98: the address blocks of a rule have exactly the addresses of the side *)

(** For every side whose exclusions are not wider than the addresses they meet: the rule of a family is left out
    only if the side has no address of the family; there is no block only if the side has every address; and a
    block can be read, has no IPv6 prefix of a length from 1 to 15, and has exactly the addresses of the side.
    Missing for the full claim: the sides of the refutations below. *)
Theorem C98_blocks_say_the_side_partial : forall c key v inc exc, In key ["source-address"; "destination-address"] -> juniper_side inc exc ->
  side_reads key v inc exc (ms_side c key v inc exc).
Proof. intros c key v inc exc K. apply ms_side_reads. destruct K as [<-|[<-|[]]]; apply plain_lit; reflexivity. Qed.
Print Assumptions C98_blocks_say_the_side_partial.
Definition ms_cfg : juniper_cfg := mkJuniper "mixed" false false.
Definition ms_inc : list net := [v6 0x20000000 14; v4 10 0 0 0 8].
Definition ms_exc : list net := [v6 0x20010db8 32; v4 10 1 0 0 16].
Example C98_example : juniper_side ms_inc ms_exc /\
  ms_side ms_cfg "source-address" V6 ms_inc ms_exc =
    Some ["source-address {"; "2000::/16;"; "2001::/16;"; "2002::/16;"; "2003::/16;"; "2001:db8::/32 except;"; "}"] /\
  ms_side ms_cfg "source-address" V4 ms_inc ms_exc = Some ["source-address {"; "10.0.0.0/8;"; "10.1.0.0/16 except;"; "}"] /\
  ms_side ms_cfg "source-address" V4 [v6 0 0] [] = None /\
  ms_side ms_cfg "destination-address" V6 [v6 0 0] [] = Some ["destination-address {"; "any-ipv6;"; "}"].
Proof.
  split; [|repeat split; vm_compute; reflexivity]. split; [valid_tac|]. split; [valid_tac|]. split; [discriminate|].
  intros i e x [<-|[<-|[]]] [<-|[<-|[]]] L (C1 & _) (C2 & _); try (vm_compute in L; discriminate L); cbn in C1, C2; congruence.
Qed.
(** An exclusion without addresses is dropped: the rule has no condition, although the side has not every address. *)
Theorem C98_exclusion_alone_refuted : exists exc x, valid_list exc /\ 0 <= x < 2 ^ width V4 /\
  ms_side ms_cfg "source-address" V4 [] exc = Some [] /\ ~ side_matches [] exc (V4, x).
Proof.
  exists [v4 10 0 0 0 8], (10 * 2 ^ 24 + 1). split; [valid_tac|]. split; [cbn; lia|]. split; [reflexivity|]. intros (_ & N). apply N.
  exists (v4 10 0 0 0 8). split; [left; reflexivity|]. split; [reflexivity|]. unfold size. cbn. lia.
Qed.
Print Assumptions C98_exclusion_alone_refuted.
(** A prefix inside an excluded one is matched, although every address of it is excluded. *)
Theorem C98_nested_exclusion_refuted : exists inc exc x ls body, valid_list inc /\ valid_list exc /\ 0 <= x < 2 ^ width V4 /\
  ms_side ms_cfg "source-address" V4 inc exc = Some ls /\ statements ls = Some [Block ["source-address"] body] /\
  in_block V4 body x /\ ~ side_matches inc exc (V4, x).
Proof.
  exists [v4 10 1 1 0 24], [v4 10 1 0 0 16], (naddr (v4 10 1 1 0 24)), ["source-address {"; "10.1.1.0/24;"; "}"], [Leaf ["10.1.1.0/24"]].
  assert (V : valid_list [v4 10 1 1 0 24]) by valid_tac. split; [exact V|]. split; [valid_tac|]. split; [cbn; lia|].
  split; [vm_compute; reflexivity|]. split; [vm_compute; reflexivity|]. split.
  - apply (proj2 (in_block_iff V4 [v4 10 1 1 0 24] [] (naddr (v4 10 1 1 0 24)) ltac:(intros n [<-|[]]; split; [exact (Forall_inv V)|reflexivity]) ltac:(intros n []) ltac:(cbn; lia))).
    exists (v4 10 1 1 0 24). split; [left; reflexivity|]. split; [split; [reflexivity|]; unfold size; cbn; lia|intros e []].
  - intros (_ & N). apply N. exists (v4 10 1 0 0 16). split; [left; reflexivity|]. split; [reflexivity|]. unfold size. cbn. lia.
Qed.
Print Assumptions C98_nested_exclusion_refuted.
