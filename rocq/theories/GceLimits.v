(** Proofs about the Google Compute Engine generator: sizes, names and descriptions of rules. *)
From Coq Require Import Lia ZifyBool ZifyNat Permutation.
From Verif Require Import SpecGce BaseFacts PyStrFacts GenProofs GenProofs2 CiscoProofs PolicyProofs GceProofs.
Local Open Scope string_scope.
Local Open Scope list_scope.
Local Open Scope Z_scope.

Lemma assoc_if {A} k (b : bool) (x y : list (string * A)) : assoc k (if b then x else y) = if b then assoc k x else assoc k y.
Proof. destruct b; reflexivity. Qed.
Lemma jhas_if k (b : bool) x y : jhas k (if b then x else y) = if b then jhas k x else jhas k y.
Proof. destruct b; reflexivity. Qed.
Ltac look := repeat (rewrite ?assoc_if, assoc_jset; cbn [String.eqb Ascii.eqb Bool.eqb]); rewrite ?assoc_if.
Definition base_name (network : string) (m6 : bool) (t : term) : string :=
  append (if is_empty network then t_name t else append (last_part network) (append "-" (t_name t))) (if m6 then "-v6" else "").
Record dict_limits (network : string) (m6 : bool) (comment : list string) (g : gce_term) (t : term) (d : rule_dict) : Prop := {
  dl_name : assoc "name" d = Some (JStr (base_name network m6 t));
  dl_description : assoc "description" d = Some (JStr (slice_to (join " " comment) 2047));
  dl_ranges : silent d "sourceRanges" /\ silent d "destinationRanges" /\ silent d "allowed" /\ silent d "denied";
  dl_tags : at_most 30 d "sourceTags" /\ at_most 70 d "targetTags";
  dl_accounts : at_most 10 d "sourceServiceAccounts" /\ at_most 10 d "targetServiceAccounts" /\
    ((silent d "sourceServiceAccounts" /\ silent d "targetServiceAccounts") \/ (silent d "sourceTags" /\ silent d "targetTags")) }.
Lemma jstrings_most n r key (l : list string) : assoc key r = Some (jstrings l) -> (List.length l <= n)%nat -> at_most n r key.
Proof. intros E L l' E'. rewrite E in E'. injection E' as <-. rewrite map_length. exact L. Qed.
Lemma silent_most n r key : silent r key -> at_most n r key.
Proof. intros S l E. unfold silent in S. congruence. Qed.
Lemma filter_most {A} (f : A -> bool) l n : (n <? List.length l)%nat = false -> (List.length (filter f l) <= n)%nat.
Proof. intros H. apply Nat.ltb_ge in H. etransitivity; [|exact H]. clear H. induction l as [|x l IH]; [reflexivity|]. cbn [filter]. destruct (f x); cbn [List.length]; lia. Qed.
Lemma term_dict_limits dir network m6 comment g t d : term_dict dir network m6 comment g t = Ok d -> dict_limits network m6 comment g t d.
Proof.
  intros H. unfold term_dict in H.
  set (d0 := [("description", JStr (slice_to (join " " comment) 2047)); ("name", JStr (t_name t)); ("direction", JStr dir)]) in H.
  set (d1 := if is_empty network then d0 else jset "name" (JStr (append (last_part network) (append "-" (t_name t)))) (jset "network" (JStr network) d0)) in H.
  set (d2 := if m6 then jset "name" (JStr (append (rule_name d1) "-v6")) d1 else d1) in H.
  assert (N2 : assoc "name" d2 = Some (JStr (base_name network m6 t))).
  { unfold d2, base_name. assert (N1 : assoc "name" d1 = Some (JStr (if is_empty network then t_name t else append (last_part network) (append "-" (t_name t))))).
    { unfold d1. destruct (is_empty network); [reflexivity|]. fields. reflexivity. }
    destruct m6; [fields; unfold rule_name; rewrite N1; reflexivity|]. rewrite N1, str_app_nil. reflexivity. }
  assert (D2 : forall k, k <> "name" -> k <> "network" -> assoc k d2 = assoc k d0).
  { intros k K1 K2. apply String.eqb_neq in K1, K2. unfold d2, d1. destruct m6, (is_empty network); rewrite ?assoc_jset, ?K1, ?K2; reflexivity. }
  assert (E0 : assoc "description" d2 = Some (JStr (slice_to (join " " comment) 2047))) by (rewrite D2 by discriminate; reflexivity).
  assert (E1 : assoc "sourceRanges" d2 = None) by (rewrite D2 by discriminate; reflexivity).
  assert (E2 : assoc "destinationRanges" d2 = None) by (rewrite D2 by discriminate; reflexivity).
  assert (E3 : assoc "allowed" d2 = None) by (rewrite D2 by discriminate; reflexivity).
  assert (E4 : assoc "denied" d2 = None) by (rewrite D2 by discriminate; reflexivity).
  assert (E5 : assoc "sourceTags" d2 = None) by (rewrite D2 by discriminate; reflexivity).
  assert (E6 : assoc "targetTags" d2 = None) by (rewrite D2 by discriminate; reflexivity).
  assert (E7 : assoc "sourceServiceAccounts" d2 = None) by (rewrite D2 by discriminate; reflexivity).
  assert (E8 : assoc "targetServiceAccounts" d2 = None) by (rewrite D2 by discriminate; reflexivity).
  clearbody d2. clear D2 d1 d0. cbv zeta in H.
  destruct (30 <? List.length (t_source_tag t))%nat eqn:L1; [discriminate H|].
  destruct (70 <? List.length (t_destination_tag t))%nat eqn:L2; [discriminate H|].
  destruct ((10 <? List.length (g_source_accounts g))%nat || (10 <? List.length (g_target_accounts g))%nat)%bool eqn:L3; [discriminate H|].
  apply orb_false_iff in L3. destruct L3 as [L3 L4]. apply Nat.ltb_ge in L3, L4.
  apply (filter_most (fun s => negb (is_empty s))) in L1, L2.
  set (st := filter (fun s => negb (is_empty s)) (t_source_tag t)) in *. set (dt := filter (fun s => negb (is_empty s)) (t_destination_tag t)) in *.
  clearbody st dt.
  match type of H with (if (_ && (jhas _ ?x || _))%bool then _ else _) = _ => set (d3 := x) in H end.
  assert (T1 : assoc "sourceTags" d3 = if (some st && String.eqb dir "INGRESS")%bool then Some (jstrings st) else None).
  { unfold d3. destruct (some st && String.eqb dir "INGRESS")%bool; destruct (some st && String.eqb dir "EGRESS")%bool; destruct (some dt && String.eqb dir "INGRESS")%bool; fields; auto. }
  assert (T2 : exists l, (List.length l <= 70)%nat /\ (assoc "targetTags" d3 = Some (jstrings l) \/ assoc "targetTags" d3 = None)).
  { unfold d3. destruct (some st && String.eqb dir "INGRESS")%bool; destruct (some st && String.eqb dir "EGRESS")%bool; destruct (some dt && String.eqb dir "INGRESS")%bool;
      fields; (exists st; split; [lia|now auto]) || (exists dt; split; [lia|now auto]). }
  assert (F : forall k, k <> "sourceTags" -> k <> "targetTags" -> assoc k d3 = assoc k d2).
  { intros k K1 K2. apply String.eqb_neq in K1, K2. unfold d3.
    destruct (some st && String.eqb dir "INGRESS")%bool; destruct (some st && String.eqb dir "EGRESS")%bool; destruct (some dt && String.eqb dir "INGRESS")%bool;
      rewrite ?assoc_jset, ?K1, ?K2; reflexivity. }
  clearbody d3.
  destruct ((some (g_source_accounts g) || some (g_target_accounts g)) && (jhas "targetTags" d3 || jhas "sourceTags" d3))%bool eqn:X; [discriminate H|].
  apply ok_inj in H.
  assert (G : forall k, k <> "sourceServiceAccounts" -> k <> "targetServiceAccounts" -> k <> "priority" -> assoc k d = assoc k d3).
  { intros k K1 K2 K3. apply String.eqb_neq in K1, K2, K3. subst d.
    destruct (some (g_source_accounts g)), (some (g_target_accounts g)), (g_priority g); rewrite ?assoc_jset, ?K1, ?K2, ?K3; reflexivity. }
  assert (A1 : assoc "sourceServiceAccounts" d = if some (g_source_accounts g) then Some (jstrings (g_source_accounts g)) else None).
  { subst d. destruct (some (g_source_accounts g)), (some (g_target_accounts g)), (g_priority g); fields; try reflexivity; rewrite F by discriminate; exact E7. }
  assert (A2 : assoc "targetServiceAccounts" d = if some (g_target_accounts g) then Some (jstrings (g_target_accounts g)) else None).
  { subst d. destruct (some (g_source_accounts g)), (some (g_target_accounts g)), (g_priority g); fields; try reflexivity; rewrite F by discriminate; exact E8. }
  clear H. constructor; unfold silent.
  - rewrite G, F by discriminate. exact N2.
  - rewrite G, F by discriminate. exact E0.
  - rewrite !G, !F by discriminate. auto.
  - split.
    + rewrite <- (G "sourceTags") in T1 by discriminate. destruct (some st && _)%bool; [exact (jstrings_most _ _ _ _ T1 L1)|exact (silent_most _ _ _ T1)].
    + destruct T2 as (l & L & T2). rewrite <- (G "targetTags") in T2 by discriminate. destruct T2 as [T2|T2]; [exact (jstrings_most _ _ _ _ T2 L)|exact (silent_most _ _ _ T2)].
  - split; [destruct (some (g_source_accounts g)); [exact (jstrings_most _ _ _ _ A1 L3)|exact (silent_most _ _ _ A1)]|].
    split; [destruct (some (g_target_accounts g)); [exact (jstrings_most _ _ _ _ A2 L4)|exact (silent_most _ _ _ A2)]|].
    rewrite A1, A2, (G "sourceTags"), (G "targetTags") by discriminate. unfold jhas in X.
    destruct (some (g_source_accounts g)), (some (g_target_accounts g)); auto; right;
      destruct (assoc "targetTags" d3), (assoc "sourceTags" d3); try discriminate X; auto.
Qed.

(** ** One pass *)
Definition numbered (base : string) (n : nat) : list string :=
  map (fun k => append base (append "-" (dec (Z.of_nat k)))) (seq 1 n).
Lemma chunk_names key d base cs : key <> "name" -> assoc "name" d = Some (JStr base) -> forall k,
  map rule_name (chunk_rules key true (Z.of_nat k) d cs) = map (fun k => append base (append "-" (dec (Z.of_nat k)))) (seq k (List.length cs)).
Proof.
  intros K E. apply not_eq_sym, String.eqb_neq in K. induction cs as [|c cs IH]; intros k; [reflexivity|]. cbn [chunk_rules map List.length seq].
  replace (Z.of_nat k + 1) with (Z.of_nat (S k)) by lia. rewrite IH. f_equal.
  unfold rule_name. rewrite E, !assoc_jset, K. cbn [String.eqb Ascii.eqb Bool.eqb]. reflexivity.
Qed.
Lemma address_names key l d base : key <> "name" -> assoc "name" d = Some (JStr base) ->
  exists n, map rule_name (address_rules key l d) = [base] \/ map rule_name (address_rules key l d) = numbered base n.
Proof.
  intros K E. unfold address_rules. set (cs := chunks (List.length l) 256 l). destruct (1 <? List.length cs)%nat eqn:L.
  - exists (List.length cs). right. apply (chunk_names key d base cs K E 1).
  - apply Nat.ltb_ge in L. destruct cs as [|c [|c2 cs]]; [exists O; right; reflexivity| |cbn in L; lia]. exists O. left. cbn [chunk_rules map].
    unfold rule_name. rewrite assoc_jset. apply not_eq_sym, String.eqb_neq in K. rewrite K, E. reflexivity.
Qed.
Lemma convert_limits dir network v m6 comment g t ps rules : convert_to_dict dir network v m6 comment g t ps = Ok rules ->
  (forall r, In r rules -> within_limits r /\ assoc "description" r = Some (JStr (slice_to (join " " comment) 2047))) /\
  (rules = [] \/ map rule_name rules = [base_name network m6 t] \/ exists n, map rule_name rules = numbered (base_name network m6 t) n).
Proof.
  intros H. unfold convert_to_dict in H. destruct (term_dict _ _ _ _ _ _) as [d|] eqn:E; [|discriminate H]. cbn [bind] in H.
  apply term_dict_limits in E. cbv zeta in H.
  assert (Nil : @Ok (list rule_dict) [] = Ok rules -> (forall r, In r rules -> within_limits r /\ assoc "description" r = Some (JStr (slice_to (join " " comment) 2047))) /\
    (rules = [] \/ map rule_name rules = [base_name network m6 t] \/ exists n, map rule_name rules = numbered (base_name network m6 t) n)).
  { intros X. apply ok_inj in X. subst rules. split; [intros r []|left; reflexivity]. }
  match type of H with (if ?b then _ else _) = _ => destruct b; [exact (Nil H)|] end.
  match type of H with (if ?b then _ else _) = _ => destruct b; [exact (Nil H)|] end.
  match type of H with (if ?b then _ else _) = _ => destruct b; [exact (Nil H)|] end.
  set (qs := if some ps then filter (fun p => negb (proto_left_out v p)) ps else [PName "all"]) in H. clearbody qs.
  destruct (some qs) eqn:Q; cbn [negb] in H; [|exact (Nil H)]. apply some_true in Q. clear Nil.
  destruct (256 <? List.length (t_destination_port t))%nat eqn:P; [discriminate H|]. apply Nat.ltb_ge in P.
  destruct (t_action t) as [|a l]; [discriminate H|]. destruct (assoc a gce_actions) as [key|] eqn:Ea; [|discriminate H].
  match type of H with (if existsb _ ?x then _ else _) = _ => set (rs := x) in H end.
  destruct (existsb (fun r => 63 <? slen (rule_name r)) rs) eqn:Ex; [discriminate H|]. apply ok_inj in H. subst rules.
  assert (Short : forall r, In r rs -> slen (rule_name r) <= 63).
  { intros r I. destruct (63 <? slen (rule_name r)) eqn:Y; [|lia]. exfalso. assert (Z : existsb (fun r => 63 <? slen (rule_name r)) rs = true) by (apply existsb_exists; eauto). congruence. }
  clear Ex. unfold rs in *. clear rs.
  match goal with |- context [address_rules "sourceRanges" _ ?x] => set (d3 := x) in * end.
  assert (K : exists other, (key = "allowed" /\ other = "denied") \/ (key = "denied" /\ other = "allowed")).
  { apply assoc_in in Ea. destruct Ea as [Ea|[Ea|[]]]; injection Ea as _ <-; eauto. }
  destruct K as (other & K).
  assert (Kd : In key ["allowed"; "denied"] /\ In other ["allowed"; "denied"] /\ key <> other) by (destruct K as [[-> ->]|[-> ->]]; (split; [cbn; auto|]; split; [cbn; auto|discriminate])).
  assert (G : forall k, k <> "logConfig" -> k <> key -> assoc k d3 = assoc k d).
  { intros k K1 K2. apply String.eqb_neq in K1, K2. unfold d3. rewrite assoc_jset, K2. destruct (some (t_logging t)); [|reflexivity]. rewrite assoc_jset, K1. reflexivity. }
  assert (G' : forall k, k <> "logConfig" -> k <> "allowed" -> k <> "denied" -> assoc k d3 = assoc k d).
  { intros k K1 K2 K3. apply G; [exact K1|]. intros ->. destruct (proj1 Kd) as [X|[X|[]]]; congruence. }
  assert (Ge : assoc key d3 = Some (JList (map (gce_entry t) qs))) by (unfold d3; rewrite assoc_jset, String.eqb_refl; reflexivity).
  assert (Go : assoc other d3 = None).
  { destruct (dl_ranges _ _ _ _ _ _ E) as (_ & _ & X & Y). unfold silent in *. rewrite G; [destruct K as [[_ ->]|[_ ->]]; assumption|destruct K as [[_ ->]|[_ ->]]; discriminate|].
    intros Z. apply (proj2 (proj2 Kd)). symmetry. exact Z. }
  clearbody d3.
  assert (Nm : assoc "name" d3 = Some (JStr (base_name network m6 t))) by (rewrite G' by discriminate; apply E).
  assert (Limits : forall r, slen (rule_name r) <= 63 -> (exists s, assoc "name" r = Some (JStr s)) ->
    (forall k, k <> "name" -> k <> "sourceRanges" -> k <> "destinationRanges" -> assoc k r = assoc k d3) ->
    at_most 256 r "sourceRanges" /\ at_most 256 r "destinationRanges" /\ (silent r "sourceRanges" \/ silent r "destinationRanges") ->
    within_limits r /\ assoc "description" r = Some (JStr (slice_to (join " " comment) 2047))).
  { intros r S (s & Sn) Fr Rg.
    assert (Ds : assoc "description" r = Some (JStr (slice_to (join " " comment) 2047))) by (rewrite Fr, G' by discriminate; apply E).
    destruct E as [_ _ _ E4 E5]. split; [|exact Ds]. constructor.
    - exists s. split; [exact Sn|]. unfold rule_name in S. rewrite Sn in S. exact S.
    - eexists. split; [exact Ds|]. apply slice_to_length. lia.
    - exact Rg.
    - unfold at_most in *. rewrite !Fr, !G' by discriminate. exact E4.
    - unfold at_most, silent in *. rewrite !Fr, !G' by discriminate. exact E5.
    - exists key, other, (map (gce_entry t) qs). split; [exact K|]. unfold silent.
      rewrite !Fr by (destruct K as [[-> ->]|[-> ->]]; discriminate). split; [exact Ge|]. split; [destruct qs; [contradiction|discriminate]|]. split; [exact Go|].
      intros e I. apply in_map_iff in I. destruct I as (q & <- & I). eexists. split; [reflexivity|]. intros l' El. cbn [assoc String.eqb Ascii.eqb Bool.eqb] in El.
      destruct (some (t_destination_port t)); [|discriminate El]. cbn [assoc String.eqb Ascii.eqb Bool.eqb] in El. injection El as <-. rewrite map_length. exact P. }
  destruct (dl_ranges _ _ _ _ _ _ E) as (Z1 & Z2 & _). unfold silent in Z1, Z2.
  assert (Z1' : assoc "sourceRanges" d3 = None) by (rewrite G' by discriminate; exact Z1).
  assert (Z2' : assoc "destinationRanges" d3 = None) by (rewrite G' by discriminate; exact Z2).
  assert (Named : forall rs r, (exists n, map rule_name rs = [base_name network m6 t] \/ map rule_name rs = numbered (base_name network m6 t) n) -> In r rs -> rule_name r <> "" -> exists s, assoc "name" r = Some (JStr s)).
  { intros rs r _ _ N. unfold rule_name in N. destruct (assoc "name" r) as [[s| | | |]|]; try (exfalso; apply N; reflexivity). eauto. }
  clear Named.
  assert (Chunk : forall key' l', key' = "sourceRanges" \/ key' = "destinationRanges" -> forall r, In r (address_rules key' l' d3) ->
    (exists s, assoc "name" r = Some (JStr s)) /\ (forall k, k <> "name" -> k <> key' -> assoc k r = assoc k d3) /\ at_most 256 r key').
  { intros key' l' Kk r I.
    assert (Kn : key' <> "name") by (destruct Kk as [->| ->]; discriminate).
    split.
    - unfold address_rules in I. apply chunk_rules_in in I. destruct I as (n & c & _ & ->). rewrite Nm, assoc_jset. apply not_eq_sym, String.eqb_neq in Kn. rewrite Kn.
      destruct (1 <? _)%nat; [fields|rewrite Nm]; eauto.
    - apply (proj1 (address_rules_spec key' l' d3 Kn)) in I. destruct I as (c & _ & C1 & C2 & C3). split; [exact C3|]. apply (jstrings_most _ _ _ _ C2). rewrite map_length. exact C1. }
  destruct (some (gce_addresses v (t_source_address t))) eqn:S1.
  - split.
    + intros r I. destruct (Chunk "sourceRanges" _ (or_introl eq_refl) r I) as (C1 & C2 & C3). apply Limits; auto.
      assert (X : assoc "destinationRanges" r = None) by (rewrite C2 by discriminate; exact Z2').
      split; [exact C3|]. split; [apply silent_most; exact X|right; exact X].
    + destruct (address_names "sourceRanges" (gce_addresses v (t_source_address t)) d3 _ ltac:(discriminate) Nm) as (n & [X|X]); eauto.
  - destruct (some (gce_addresses v (t_destination_address t))) eqn:S2.
    + split.
      * intros r I. destruct (Chunk "destinationRanges" _ (or_intror eq_refl) r I) as (C1 & C2 & C3). apply Limits; auto.
        assert (X : assoc "sourceRanges" r = None) by (rewrite C2 by discriminate; exact Z1').
        split; [apply silent_most; exact X|]. split; [exact C3|left; exact X].
      * destruct (address_names "destinationRanges" (gce_addresses v (t_destination_address t)) d3 _ ltac:(discriminate) Nm) as (n & [X|X]); eauto.
    + split.
      * intros r [<-|[]]. apply Limits; [apply Short; left; reflexivity|eauto|auto|]. split; [apply silent_most; exact Z1'|]. split; [apply silent_most; exact Z2'|left; exact Z1'].
      * right. left. cbn [map]. unfold rule_name. rewrite Nm. reflexivity.
Qed.
