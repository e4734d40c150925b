(** Theorems C15, C16 and C41: discontinuous-mask summarisation (summarizer.py). *)
From Coq Require Import Lia Sorted.
From Verif Require Import SpecSum Samples SumProofs.
Local Open Scope Z_scope.

(** C15 *)
Theorem C15_summarize_same_addresses :
  forall v nets, valid_list nets -> Forall (fun n => nver n = v) nets ->
    exists result, summarize nets = Ok result /\
      forall x, 0 <= x < 2 ^ width v -> (dsm_matched result x <-> covered nets (v, x)).
Proof.
  exact (fun v nets V H => match summarize_spec v nets V H with
    ex_intro _ r (conj R1 (conj R2 _)) => ex_intro _ r (conj R1 R2) end).
Qed.
Print Assumptions C15_summarize_same_addresses.

(** Every input network is inside one result, which keeps its comment. *)
Theorem C15_summarize_keeps_comments :
  forall v nets result, valid_list nets -> Forall (fun n => nver n = v) nets ->
    summarize nets = Ok result ->
    forall n, In n nets -> exists d, In d result /\
      (forall x, covers n (v, x) -> dsm_match d x) /\ contains (dtext d) (ntext n).
Proof. exact summarize_comments. Qed.
Print Assumptions C15_summarize_keeps_comments.

Theorem C15_summarize_sorted_and_short :
  forall v nets result collapsed, valid_list nets -> Forall (fun n => nver n = v) nets ->
    summarize nets = Ok result -> collapse_addr_list nets [] = Ok collapsed ->
    StronglySorted (fun a b => daddr a <= daddr b) result /\
    (List.length result <= List.length collapsed)%nat.
Proof. exact summarize_shape. Qed.
Print Assumptions C15_summarize_sorted_and_short.

Example C15_example :
  summarize [v4t 10 0 1 0 24 "a" "" ""; v4t 10 1 1 0 24 "b" "" ""; v4 10 0 3 0 24; v4 10 1 3 0 24; v4 9 0 0 0 8]
  = Ok [mkDsm (naddr (v4 9 0 0 0 8)) (naddr (v4 255 0 0 0 8)) "";
        mkDsm (naddr (v4 10 0 1 0 24)) (naddr (v4 255 254 253 0 24)) "a, b"].
Proof. vm_compute. reflexivity. Qed.

(** C16 *)
Theorem C16_dotted_quad_exact :
  forall d negate a m, 0 <= daddr d -> 0 <= dmask d ->
    to_dotted_quad d negate false = Ok (a, m) ->
    denotes_quad a (daddr d) /\
    denotes_quad m (if negate then 2 ^ 32 - 1 - dmask d else dmask d).
Proof. exact (fun d ng a m Ha Hm => proj1 (to_dotted_quad_spec d ng Ha Hm) a m). Qed.
Print Assumptions C16_dotted_quad_exact.

Theorem C16_dotted_quad_accepts :
  forall d negate, 0 <= daddr d -> 0 <= dmask d ->
    ((exists a m, to_dotted_quad d negate false = Ok (a, m)) <->
     daddr d < 2 ^ 32 /\ (dmask d = 0 \/ 2 ^ 31 <= dmask d < 2 ^ 32)).
Proof. exact (fun d ng Ha Hm => proj2 (to_dotted_quad_spec d ng Ha Hm)). Qed.
Print Assumptions C16_dotted_quad_accepts.

(** With nondsm, contiguous masks are written as their length, others as quads. *)
Theorem C16_prefixlen_text :
  forall m, 0 <= m < 2 ^ 32 ->
    (exists p, 0 <= p <= 32 /\ m = 2 ^ 32 - 2 ^ (32 - p) /\ prefixlen_for_nondsm m = dec p) \/
    ((forall p, 0 <= p <= 32 -> m <> 2 ^ 32 - 2 ^ (32 - p)) /\ denotes_quad (prefixlen_for_nondsm m) m).
Proof. exact nondsm_spec. Qed.
Print Assumptions C16_prefixlen_text.

Example C16_example :
  to_dotted_quad (mkDsm (naddr (v4 10 0 1 0 24)) (naddr (v4 255 254 253 0 24)) "") false false
  = Ok ("10.0.1.0", "255.254.253.0")%string /\
  to_dotted_quad (mkDsm (naddr (v4 10 0 1 0 24)) (naddr (v4 255 254 253 0 24)) "") true false
  = Ok ("10.0.1.0", "0.1.2.255")%string /\
  to_dotted_quad (mkDsm (naddr (v4 10 0 0 0 24)) (naddr (v4 255 254 0 0 15)) "") false true
  = Ok ("10.0.0.0", "15")%string.
Proof. vm_compute. auto. Qed.

(** C41 *)
Theorem C41_summaries_renderable_refuted :
  exists nets result d, valid_list nets /\ Forall (fun n => nver n = V4) nets /\
    summarize nets = Ok result /\ In d result /\
    to_dotted_quad d false false = Raise (Exn "ValueError").
Proof.
  exists [v4 10 0 0 0 8; v4 138 0 0 0 8]. eexists. exists (mkDsm (naddr (v4 10 0 0 0 8)) (naddr (v4 127 0 0 0 8)) "").
  split; [valid_tac|]. split; [repeat constructor|]. split; [vm_compute; reflexivity|].
  split; [left; reflexivity|]. vm_compute. reflexivity.
Qed.
Print Assumptions C41_summaries_renderable_refuted.

(** Renderable when all networks are IPv4 and in one half of the address space. *)
Theorem C41_summaries_renderable_partial :
  forall nets b, valid_list nets ->
    (forall x, covered nets x -> fst x = V4 /\ Z.testbit (snd x) 31 = b) ->
    exists result, summarize nets = Ok result /\
      forall d negate nondsm, In d result -> exists a m, to_dotted_quad d negate nondsm = Ok (a, m).
Proof. exact summarize_renders. Qed.
Print Assumptions C41_summaries_renderable_partial.

Example C41_example :
  let nets := [v4 10 0 0 0 8; v4 74 0 0 0 8] in
  valid_list nets /\ (forall x, covered nets x -> fst x = V4 /\ Z.testbit (snd x) 31 = false).
Proof.
  split; [valid_tac|]. intros [v x] [n [[<-|[<-|[]]] [E B]]]; cbn [fst snd] in *; subst v; (split; [reflexivity|]);
    unfold v4, plain, size in B; cbn [naddr nver nlen width] in B;
    (destruct (Z.eq_dec x 0) as [->|]; [apply Z.bits_0|]; apply Z.bits_above_log2; [lia|apply Z.log2_lt_pow2; simpl in B; lia]).
Qed.
