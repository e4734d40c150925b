(** Proofs about the objects built from the statements of a text: all statements. *)
From Coq Require Import Lia ZifyBool ZifyNat.
From Verif Require Import SpecSaid BaseFacts PortNameProofs GenProofs ParseProofs BuildSteps.
Local Open Scope string_scope.
Local Open Scope list_scope.

(** ** All statements of a term *)

Lemma said_cons k s l : said k (s :: l) = if String.eqb (fst s) k then snd s :: said k l else said k l.
Proof. unfold said. cbn. destruct (String.eqb (fst s) k); reflexivity. Qed.
Lemma last_of_app {A} (l r : list A) : last_of (l ++ r) = match last_of r with Some a => Some a | None => last_of l end.
Proof.
  induction l as [|a l IH]; [cbn; destruct (last_of r); reflexivity|].
  destruct l as [|b l].
  - cbn [app]. destruct r as [|c r]; [reflexivity|]. change (last_of (a :: c :: r)) with (last_of (c :: r)).
    destruct (last_of (c :: r)) eqn:E; [reflexivity|]. exfalso. clear -E. revert c E.
    induction r as [|d r IH]; intros c E; [discriminate E|]. exact (IH d E).
  - cbn [app] in *. change (last_of (a :: b :: l ++ r)) with (last_of (b :: l ++ r)). rewrite IH. reflexivity.
Qed.
Lemma last_of_cons {A} (a : A) r : last_of (a :: r) = match last_of r with Some b => Some b | None => Some a end.
Proof. exact (last_of_app [a] r). Qed.

Section All.
  Context (lookup : string -> res (list net)).

  Lemma adds_grows {A} k (get : pterm -> list A) f :
    (forall s p p', add_object lookup s p = Ok p' -> grows k get f s p p') ->
    forall l p p', add_objects lookup l p = Ok p' -> get p' = get p ++ flat_map f (said k l).
  Proof.
    intros Hs. induction l as [|s l IH]; intros p p' H; cbn [add_objects] in H.
    - injection H as <-. now rewrite app_nil_r.
    - destruct (add_object lookup s p) as [q|] eqn:E; [|discriminate]. cbn [bind] in H.
      rewrite (IH _ _ H), (Hs _ _ _ E), said_cons. destruct (String.eqb (fst s) k); [|reflexivity].
      cbn [flat_map]. now rewrite app_assoc.
  Qed.
  Lemma adds_replaces {A} k (get : pterm -> option A) f :
    (forall s p p', add_object lookup s p = Ok p' -> replaces k get f s p p') ->
    forall l p p', add_objects lookup l p = Ok p' ->
      get p' = match last_of (flat_map f (said k l)) with Some a => Some a | None => get p end.
  Proof.
    intros Hs. induction l as [|s l IH]; intros p p' H; cbn [add_objects] in H.
    - injection H as <-. reflexivity.
    - destruct (add_object lookup s p) as [q|] eqn:E; [|discriminate]. cbn [bind] in H.
      rewrite (IH _ _ H), said_cons. specialize (Hs _ _ _ E). unfold replaces in Hs.
      destruct (String.eqb (fst s) k); [|now rewrite Hs].
      destruct Hs as (a & Ha & ->). cbn [flat_map]. rewrite Ha. cbn [app]. rewrite last_of_cons.
      destruct (last_of (flat_map f (said k l))); reflexivity.
  Qed.
  Lemma adds_nets_all k (get : pterm -> list net) :
    (forall s p p', add_object lookup s p = Ok p' -> adds_nets lookup k get s p p') ->
    forall l p p', add_objects lookup l p = Ok p' ->
      exists nets, mapM lookup (words_said k l) = Ok nets /\ get p' = get p ++ concat nets.
  Proof.
    intros Hs. induction l as [|s l IH]; intros p p' H; cbn [add_objects] in H.
    - injection H as <-. exists []. split; [reflexivity|]. cbn. now rewrite app_nil_r.
    - destruct (add_object lookup s p) as [q|] eqn:E; [|discriminate]. cbn [bind] in H.
      destruct (IH _ _ H) as (nets & En & Eg). specialize (Hs _ _ _ E). unfold adds_nets in Hs.
      unfold words_said. rewrite said_cons. destruct (String.eqb (fst s) k).
      + destruct Hs as (ns & E1 & E2). exists (ns ++ nets). cbn [flat_map]. split.
        * clear -En E1. unfold words_said in En. revert ns E1. generalize (value_words (snd s)).
          induction l0 as [|w ws IHw]; intros ns E1; [injection E1 as <-; exact En|].
          cbn [mapM app] in *. destruct (lookup w) as [a|]; [|discriminate]. cbn [bind] in *.
          destruct (mapM lookup ws) as [as'|]; [|discriminate]. cbn [bind] in *. injection E1 as <-.
          rewrite (IHw as' eq_refl). reflexivity.
        * rewrite Eg, E2, concat_app, app_assoc. reflexivity.
      + exists nets. split; [exact En|]. now rewrite Eg, Hs.
  Qed.
  Lemma adds_keeps {A} (get : pterm -> A) :
    (forall s p p', add_object lookup s p = Ok p' -> get p' = get p) ->
    forall l p p', add_objects lookup l p = Ok p' -> get p' = get p.
  Proof.
    intros Hs. induction l as [|s l IH]; intros p p' H; cbn [add_objects] in H; [injection H as <-; reflexivity|].
    destruct (add_object lookup s p) as [q|] eqn:E; [|discriminate]. cbn [bind] in H.
    rewrite (IH _ _ H). eauto.
  Qed.
  Lemma adds_number k (get : pterm -> option Z) :
    (forall s p p', add_object lookup s p = Ok p' -> reads_number k get s p p') ->
    forall l p p', add_objects lookup l p = Ok p' ->
      match last_of (words_said k l) with
      | Some w => exists n, numeral_value w = Some n /\ get p' = Some n
      | None => get p' = get p
      end.
  Proof.
    intros Hs. induction l as [|s l IH]; intros p p' H; cbn [add_objects] in H.
    - injection H as <-. reflexivity.
    - destruct (add_object lookup s p) as [q|] eqn:E; [|discriminate]. cbn [bind] in H.
      specialize (IH _ _ H). unfold words_said in *. rewrite said_cons. specialize (Hs _ _ _ E). unfold reads_number in Hs.
      destruct (String.eqb (fst s) k).
      + destruct Hs as (w & n & Hw & Hn & Hg). cbn [flat_map]. rewrite Hw. cbn [app]. rewrite last_of_cons.
        destruct (last_of (flat_map value_words (said k l))); [exact IH|]. exists n. now rewrite IH.
      + destruct (last_of (flat_map value_words (said k l))); [exact IH|]. now rewrite IH.
  Qed.

  (** A term built from statements. *)
  Lemma build_term_adds name l p : build_term lookup (name, l) = Ok p ->
    l <> [] /\ add_objects lookup l (new_pterm name) = Ok p.
  Proof. unfold build_term. cbn [fst snd]. destruct l; [discriminate|]. intros H. split; [discriminate|exact H]. Qed.

  Context (name : string) (l : list stmt) (p : pterm).
  Context (built : build_term lookup (name, l) = Ok p).
  Let adds : add_objects lookup l (new_pterm name) = Ok p := proj2 (build_term_adds _ _ _ built).

  Lemma built_collected k get : In (k, get) collected -> get p = words_said k l.
  Proof.
    intros H. rewrite (adds_grows k get value_words) with (2 := adds).
    - assert (E : get (new_pterm name) = []) by (clear -H; in_cases H; injection H as <- <-; reflexivity).
      now rewrite E.
    - intros s q q' E. pose proof (proj1 (Forall_forall _ _) (collected_step _ _ _ _ E) _ H) as G. exact G.
  Qed.
  Lemma built_settled k get : In (k, get) settled -> get p = last_of (words_said k l).
  Proof.
    intros H. rewrite (adds_replaces k get value_words) with (2 := adds).
    - assert (E : get (new_pterm name) = None) by (clear -H; in_cases H; injection H as <- <-; reflexivity).
      rewrite E. unfold words_said. destruct (last_of _); reflexivity.
    - intros s q q' E. pose proof (proj1 (Forall_forall _ _) (settled_step _ _ _ _ E) _ H) as G. exact G.
  Qed.
  Lemma built_networks k get : In (k, get) networks ->
    exists nets, mapM lookup (words_said k l) = Ok nets /\ get p = concat nets.
  Proof.
    intros H. destruct (adds_nets_all k get) with (2 := adds) as (nets & E1 & E2).
    - intros s q q' E. pose proof (proj1 (Forall_forall _ _) (networks_step _ _ _ _ E) _ H) as G. exact G.
    - exists nets. split; [exact E1|]. rewrite E2.
      assert (E : get (new_pterm name) = []) by (clear -H; in_cases H; injection H as <- <-; reflexivity).
      now rewrite E.
  Qed.
  Lemma built_paired k get : In (k, get) paired -> get p = pairs_said k l.
  Proof.
    intros H. rewrite (adds_grows k get value_pairs) with (2 := adds).
    - assert (E : get (new_pterm name) = []) by (clear -H; in_cases H; injection H as <- <-; reflexivity).
      now rewrite E.
    - intros s q q' E.
      pose proof (proj1 (Forall_forall _ _) (proj1 (others_step _ _ _ _ E)) _ H) as G. exact G.
  Qed.
  Lemma built_one_pair k get : In (k, get) one_pair -> get p = last_of (pairs_said k l).
  Proof.
    intros H. rewrite (adds_replaces k get value_pairs) with (2 := adds).
    - assert (E : get (new_pterm name) = None) by (clear -H; in_cases H; injection H as <- <-; reflexivity).
      rewrite E. unfold pairs_said. destruct (last_of _); reflexivity.
    - intros s q q' E.
      pose proof (proj1 (Forall_forall _ _) (proj1 (proj2 (others_step _ _ _ _ E))) _ H) as G. exact G.
  Qed.
  Lemma flat_map_map {A B C} (f : A -> list B) (g : B -> C) m :
    flat_map (fun v => map g (f v)) m = map g (flat_map f m).
  Proof. induction m as [|a m IH]; cbn; [reflexivity|]. now rewrite map_app, IH. Qed.
  Lemma built_comment : t_comment (p_term p) = map comment_value (words_said "comment" l).
  Proof.
    rewrite (adds_grows "comment" (fun p => t_comment (p_term p)) (fun v => map comment_value (value_words v)))
      with (2 := adds).
    - cbn. now rewrite flat_map_map.
    - intros s q q' E. exact (proj1 (proj2 (proj2 (others_step _ _ _ _ E)))).
  Qed.
  Lemma built_verbatim : t_verbatim (p_term p) =
    map (fun ab => (fst ab, unescape (strip_dq (snd ab)))) (pairs_said "verbatim" l).
  Proof.
    rewrite (adds_grows "verbatim" (fun p => t_verbatim (p_term p)) verbatim_of) with (2 := adds).
    - cbn. unfold verbatim_of. now rewrite flat_map_map.
    - intros s q q' E. exact (proj1 (proj2 (proj2 (proj2 (others_step _ _ _ _ E))))).
  Qed.
  Lemma built_icmp_code : t_icmp_code (p_term p) = numbers_said "icmp-code" l.
  Proof.
    rewrite (adds_grows "icmp-code" (fun p => t_icmp_code (p_term p)) value_numbers) with (2 := adds); [reflexivity|].
    intros s q q' E. exact (proj1 (proj2 (proj2 (proj2 (proj2 (others_step _ _ _ _ E)))))).
  Qed.
  Lemma built_precedence : t_precedence (p_term p) =
    match last_of (said "precedence" l) with Some v => map dec (value_numbers v) | None => [] end.
  Proof.
    assert (H : Some (t_precedence (p_term p)) = _) by (
      apply (adds_replaces "precedence" (fun p => Some (t_precedence (p_term p))) (fun v => [map dec (value_numbers v)]))
        with (2 := adds);
      intros s q q' E; exact (proj1 (proj2 (proj2 (proj2 (proj2 (proj2 (others_step _ _ _ _ E)))))))).
    assert (G : forall m : list value, last_of (flat_map (fun v => [map dec (value_numbers v)]) m) =
      option_map (fun v => map dec (value_numbers v)) (last_of m)).
    { clear. induction m as [|v m IH]; [reflexivity|]. cbn [flat_map app]. rewrite !last_of_cons, IH.
      destruct (last_of m); reflexivity. }
    rewrite G in H. destruct (last_of (said "precedence" l)); cbn in H; now injection H.
  Qed.
  Lemma last_of_map {A B} (f : A -> B) m : last_of (map f m) = option_map f (last_of m).
  Proof. induction m as [|v m IH]; [reflexivity|]. cbn [map]. rewrite !last_of_cons, IH. destruct (last_of m); reflexivity. Qed.
  Lemma built_log_name : x_log_name (p_extra p) = option_map comment_value (last_of (words_said "log_name" l)).
  Proof.
    rewrite (adds_replaces "log_name" (fun p => x_log_name (p_extra p)) (fun v => map comment_value (value_words v)))
      with (2 := adds).
    - rewrite flat_map_map, last_of_map. unfold words_said. destruct (last_of _); reflexivity.
    - intros s q q' E. exact (proj1 (proj2 (proj2 (proj2 (proj2 (proj2 (proj2 (others_step _ _ _ _ E)))))))).
  Qed.
  Lemma built_name : t_name (p_term p) = name.
  Proof.
    rewrite (adds_keeps (fun p => t_name (p_term p))) with (2 := adds); [reflexivity|].
    intros s q q' E. exact (proj2 (proj2 (proj2 (proj2 (proj2 (proj2 (proj2 (others_step _ _ _ _ E)))))))).
  Qed.
  Lemma built_ttl : match last_of (words_said "ttl" l) with
    | Some w => exists n, numeral_value w = Some n /\ t_ttl (p_term p) = Some n
    | None => t_ttl (p_term p) = None end.
  Proof.
    apply (adds_number "ttl" (fun p => t_ttl (p_term p))) with (2 := adds).
    intros s q q' E. exact (proj1 (numbers_step _ _ _ _ E)).
  Qed.
  Lemma built_traffic_class : match last_of (words_said "traffic-class" l) with
    | Some w => exists n, numeral_value w = Some n /\ t_traffic_class (p_term p) = Some n
    | None => t_traffic_class (p_term p) = None end.
  Proof.
    apply (adds_number "traffic-class" (fun p => t_traffic_class (p_term p))) with (2 := adds).
    intros s q q' E. exact (proj1 (proj2 (numbers_step _ _ _ _ E))).
  Qed.
  Lemma adds_expiration : forall m p q, add_objects lookup m p = Ok q ->
    match last_of (said "expiration" m) with
    | Some v => exists y m d n, v = VDate y m d /\ date_ordinal y m d = Ok n /\ t_expiration (p_term q) = Some n
    | None => t_expiration (p_term q) = t_expiration (p_term p)
    end.
  Proof.
    clear. induction m as [|s m IH]; intros q0 q H; cbn [add_objects] in H.
    - injection H as <-. reflexivity.
    - destruct (add_object lookup s q0) as [p1|] eqn:E; [|discriminate]. cbn [bind] in H.
      specialize (IH _ _ H). rewrite said_cons. pose proof (proj1 (proj2 (proj2 (numbers_step _ _ _ _ E)))) as Hs.
      destruct (String.eqb (fst s) "expiration").
      + rewrite last_of_cons. destruct (last_of (said "expiration" m)); [exact IH|]. now rewrite IH.
      + destruct (last_of (said "expiration" m)); [exact IH|]. now rewrite IH.
  Qed.
  Lemma built_expiration : match last_of (said "expiration" l) with
    | Some v => exists y m d n, v = VDate y m d /\ date_ordinal y m d = Ok n /\ t_expiration (p_term p) = Some n
    | None => t_expiration (p_term p) = None end.
  Proof. exact (adds_expiration _ _ _ adds). Qed.
  Lemma adds_next_ip : forall m p q, add_objects lookup m p = Ok q ->
    match last_of (words_said "next-ip" m) with
    | Some w => lookup w = Ok (t_next_ip (p_term q))
    | None => t_next_ip (p_term q) = t_next_ip (p_term p)
    end.
  Proof.
    clear. induction m as [|s m IH]; intros q0 q H; cbn [add_objects] in H.
    - injection H as <-. reflexivity.
    - destruct (add_object lookup s q0) as [p1|] eqn:E; [|discriminate]. cbn [bind] in H.
      specialize (IH _ _ H). unfold words_said in *. rewrite said_cons.
      pose proof (proj2 (proj2 (proj2 (numbers_step _ _ _ _ E)))) as Hs.
      destruct (String.eqb (fst s) "next-ip").
      + destruct Hs as (w & nets & Hw & Hl & Hn). cbn [flat_map]. rewrite Hw. cbn [app]. rewrite last_of_cons.
        destruct (last_of (flat_map value_words (said "next-ip" m))); [exact IH|]. now rewrite IH, Hn.
      + destruct (last_of (flat_map value_words (said "next-ip" m))); [exact IH|]. now rewrite IH.
  Qed.
  Lemma built_next_ip : match last_of (words_said "next-ip" l) with
    | Some w => lookup w = Ok (t_next_ip (p_term p))
    | None => t_next_ip (p_term p) = [] end.
  Proof. exact (adds_next_ip _ _ _ adds). Qed.
  Lemma built_no_ports : t_port (p_term p) = [] /\ t_source_port (p_term p) = [] /\ t_destination_port (p_term p) = [].
  Proof.
    repeat apply conj.
    - apply (adds_keeps (fun p => t_port (p_term p))) with (2 := adds). intros s q q' E. apply (untouched_step _ _ _ _ E).
    - apply (adds_keeps (fun p => t_source_port (p_term p))) with (2 := adds). intros s q q' E. apply (untouched_step _ _ _ _ E).
    - apply (adds_keeps (fun p => t_destination_port (p_term p))) with (2 := adds). intros s q q' E. apply (untouched_step _ _ _ _ E).
  Qed.
  Lemma built_flat : t_flattened (p_term p) = false /\ t_flattened_addr (p_term p) = [] /\
    t_flattened_saddr (p_term p) = [] /\ t_flattened_daddr (p_term p) = [].
  Proof.
    repeat apply conj.
    - apply (adds_keeps (fun p => t_flattened (p_term p))) with (2 := adds). intros s q q' E. apply (untouched_step _ _ _ _ E).
    - apply (adds_keeps (fun p => t_flattened_addr (p_term p))) with (2 := adds). intros s q q' E. apply (untouched_step _ _ _ _ E).
    - apply (adds_keeps (fun p => t_flattened_saddr (p_term p))) with (2 := adds). intros s q q' E. apply (untouched_step _ _ _ _ E).
    - apply (adds_keeps (fun p => t_flattened_daddr (p_term p))) with (2 := adds). intros s q q' E. apply (untouched_step _ _ _ _ E).
  Qed.
End All.
