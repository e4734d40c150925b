(** Large terms of SRX policies, and expired ones. *)
From Coq Require Import Lia ZifyBool ZifyNat.
From Verif Require Import IptPolicy SpecSrx BaseFacts TextProofs PyStrFacts PolicyProofs GenProofs GenProofs2 CiscoProofs CiscoGroupAcl SonicPolicy SrxRead SrxApps SrxWhole.
Local Open Scope string_scope.
Local Open Scope list_scope.
Local Open Scope Z_scope.

(** ** Chunks *)
Lemma chunks_concat : forall l c cur, concat (srx_chunks c cur l) = cur ++ l.
Proof.
  induction l as [|i l IH]; intros c cur; cbn [srx_chunks]; [cbn [concat]; reflexivity|]. destruct (1023 <? 2 * c); cbn [concat]; rewrite IH; [reflexivity|]. rewrite <- app_assoc. reflexivity.
Qed.
Definition list_weight (l : list net) : Z := fold_right (fun n w => srx_weight n + w) 0 l.
Lemma weight_app a b : list_weight (a ++ b) = list_weight a + list_weight b.
Proof. induction a as [|n a IH]; [reflexivity|]. cbn [app list_weight fold_right]. fold (list_weight (a ++ b)). fold (list_weight a). lia. Qed.
Lemma weight_range n : 1 <= srx_weight n <= 4.
Proof. unfold srx_weight. destruct (nver n); lia. Qed.
Lemma chunks_weight : forall l c cur, c = list_weight cur -> c <= 515 -> forall ch, In ch (srx_chunks c cur l) -> list_weight ch <= 515.
Proof.
  induction l as [|i l IH]; intros c cur E L ch I; cbn [srx_chunks] in I.
  - destruct I as [<-|[]]. lia.
  - pose proof (weight_range i). destruct (1023 <? 2 * c) eqn:C.
    + destruct I as [<-|I]; [lia|]. revert I. apply IH; [cbn [list_weight fold_right]; lia|lia].
    + revert I. apply IH; [rewrite weight_app; cbn [list_weight fold_right]; lia|lia].
Qed.
Lemma chunks_nonempty : forall l c cur, (cur = [] -> c = 0) -> (cur <> [] \/ l <> []) -> forall ch, In ch (srx_chunks c cur l) -> ch <> [].
Proof.
  induction l as [|i l IH]; intros c cur Z N ch I; cbn [srx_chunks] in I.
  - destruct I as [<-|[]]. destruct N as [N|N]; [exact N|destruct (N eq_refl)].
  - destruct (1023 <? 2 * c) eqn:C.
    + destruct I as [<-|I]; [intros E; specialize (Z E); lia|]. apply (IH _ _) with (3 := I); [discriminate|left; discriminate].
    + apply (IH _ _) with (3 := I); [intros E; destruct cur; discriminate E|left; destruct cur; discriminate].
Qed.
Lemma numbered_map_snd {A} (l : list A) : forall k, map snd (numbered k l) = l.
Proof. induction l as [|x l IH]; intros k; [reflexivity|]. cbn [numbered map snd]. rewrite IH. reflexivity. Qed.
Lemma numbered_from {A} (l : list A) k j x : In (j, x) (numbered k l) -> In x l.
Proof. intros I. rewrite <- (numbered_map_snd l k). exact (in_map snd _ _ I). Qed.
Lemma covers_named n tok x : covers (named_parent n tok) x <-> covers n x.
Proof. reflexivity. Qed.
Lemma named_in pre name l ch : In ch (named_chunks pre name l) <-> exists k raw, In (k, raw) (numbered 0 (srx_chunks 0 [] l)) /\ ch = map (fun n => named_parent n (pre ++ name ++ dec k)%string) raw.
Proof.
  unfold named_chunks. rewrite in_map_iff. split.
  - intros ((k & raw) & <- & I). exists k, raw. auto.
  - intros (k & raw & I & ->). exists (k, raw). auto.
Qed.
Lemma map_nil {A B} (f : A -> B) l : map f l = [] -> l = [].
Proof. destruct l; [reflexivity|discriminate]. Qed.
(** The chunks of a side match what the side matches. *)
Lemma chunk_side pre name l exc x : side_matches l exc x <-> exists ch, In ch (named_chunks pre name l) /\ side_matches ch exc x.
Proof.
  pose proof (chunks_concat l 0 []) as Cc. cbn [app] in Cc. unfold side_matches. split.
  - intros ([->|(n & In0 & Cn)] & X).
    + exists []. split; [left; reflexivity|]. auto.
    + rewrite <- Cc in In0. apply in_concat in In0. destruct In0 as (raw & Ir & In0). rewrite <- (numbered_map_snd (srx_chunks 0 [] l) 0) in Ir. apply in_map_iff in Ir. destruct Ir as ((k & raw') & E & Ir). cbn [snd] in E. subst raw'.
      eexists. split; [apply named_in; exists k, raw; split; [exact Ir|reflexivity]|]. split; [|exact X]. right. eexists. split; [apply in_map; exact In0|exact Cn].
  - intros (ch & I & M & X). split; [|exact X]. apply named_in in I. destruct I as (k & raw & I & ->).
    assert (Ir : In raw (srx_chunks 0 [] l)) by exact (numbered_from _ _ _ _ I).
    destruct M as [M|(n & In0 & Cn)].
    + apply map_nil in M. subst raw. destruct l as [|i l]; [left; reflexivity|]. exfalso. assert (Z0 : @nil net = [] -> 0 = 0) by reflexivity. assert (Nn : @nil net <> [] \/ i :: l <> []) by (right; discriminate). exact (chunks_nonempty (i :: l) 0 [] Z0 Nn [] Ir eq_refl).
    + right. apply in_map_iff in In0. destruct In0 as (m & <- & In0). exists m. split; [|exact Cn]. rewrite <- Cc. apply in_concat. exists raw. auto.
Qed.

(** ** The pieces of a term *)
Definition other_conditions (t : term) (p : packet) : Prop :=
  either_matches (t_address t) (t_address_exclude t) (p_src p) (p_dst p) /\ protocols_match t p /\ all_ports_match t p /\ prefixes_match t p /\
  options_match t p /\ numbers_match t p /\ icmp_match t p /\ place_matches t p /\ link_matches t p.
Lemma matches_sides t p : term_matches t p <-> side_matches (t_source_address t) (t_source_address_exclude t) (p_src p) /\
  side_matches (t_destination_address t) (t_destination_address_exclude t) (p_dst p) /\ other_conditions t p.
Proof. unfold term_matches, addresses_match, other_conditions. tauto. Qed.
Lemma piece_sides t n src dst p : term_matches (set_name n (set_source_address src (set_destination_address dst t))) p <->
  side_matches src (t_source_address_exclude t) (p_src p) /\ side_matches dst (t_destination_address_exclude t) (p_dst p) /\ other_conditions t p.
Proof. rewrite matches_sides. reflexivity. Qed.
Lemma numbered_in_snd {A} (l : list A) : forall k x, In x l -> exists j, In (j, x) (numbered k l).
Proof.
  intros k x I. rewrite <- (numbered_map_snd l k) in I. apply in_map_iff in I. destruct I as ((j & y) & E & I). cbn [snd] in E. subst y. exists j. exact I.
Qed.
Lemma large_matches vs t p : term_matches t p <-> exists u, In u (fix_large_term vs t) /\ term_matches u p.
Proof.
  unfold fix_large_term. destruct (1023 <? byte_length vs t).
  2: { split; [intros M; exists t; split; [left; reflexivity|exact M]|intros (u & [<-|[]] & M); exact M]. }
  rewrite matches_sides, (chunk_side "src_" (t_name t) (t_source_address t)), (chunk_side "dst_" (t_name t) (t_destination_address t)). split.
  - intros ((src & Is & Ms) & (dst & Id & Md) & R). destruct (numbered_in_snd _ 0 (src, dst) (proj2 (in_prod_iff _ _ _ _) (conj Is Id))) as (k & Ik).
    eexists. split; [apply in_map; exact Ik|]. apply piece_sides. auto.
  - intros (u & I & M). apply in_map_iff in I. destruct I as ((k & (src & dst)) & <- & I). apply piece_sides in M. cbn [fst snd] in M. destruct M as (Ms & Md & R).
    assert (J : In (src, dst) (list_prod (named_chunks "src_" (t_name t) (t_source_address t)) (named_chunks "dst_" (t_name t) (t_destination_address t)))).
    { exact (numbered_from _ _ _ _ I). }
    apply in_prod_iff in J. destruct J as (Js & Jd). split; [eauto|]. split; [eauto|exact R].
Qed.
Lemma large_same vs t u : In u (fix_large_term vs t) -> t_action u = t_action t /\ (forall today, in_force today u <-> in_force today t) /\ (forall pl, meant_for pl u <-> meant_for pl t) /\
  (u = t \/ list_weight (t_source_address u) <= 515 /\ list_weight (t_destination_address u) <= 515).
Proof.
  unfold fix_large_term. destruct (1023 <? byte_length vs t).
  2: { intros [<-|[]]. split; [reflexivity|]. split; [reflexivity|]. split; [reflexivity|]. left. reflexivity. }
  intros I. apply in_map_iff in I. destruct I as ((k & (src & dst)) & <- & I). split; [reflexivity|]. split; [reflexivity|]. split; [reflexivity|]. right. cbn [fst snd].
  assert (J : In (src, dst) (list_prod (named_chunks "src_" (t_name t) (t_source_address t)) (named_chunks "dst_" (t_name t) (t_destination_address t)))).
  { exact (numbered_from _ _ _ _ I). }
  apply in_prod_iff in J. destruct J as (Js & Jd).
  assert (W : forall pre name l ch, In ch (named_chunks pre name l) -> list_weight ch <= 515).
  { intros pre name l ch J. apply named_in in J. destruct J as (j & raw & J & ->).
    assert (E : list_weight (map (fun n => named_parent n (pre ++ name ++ dec j)%string) raw) = list_weight raw).
    { clear. induction raw as [|n raw IH]; [reflexivity|]. cbn [map list_weight fold_right]. fold (list_weight raw). rewrite <- IH. reflexivity. }
    rewrite E. apply (chunks_weight l 0 [] eq_refl); [lia|]. exact (numbered_from _ _ _ _ J). }
  split; [exact (W _ _ _ _ Js)|exact (W _ _ _ _ Jd)].
Qed.
Lemma large_names vs t : NoDup (map t_name (fix_large_term vs t)).
Proof.
  unfold fix_large_term. destruct (1023 <? byte_length vs t); [|constructor; [intros []|constructor]]. rewrite map_map.
  generalize (list_prod (named_chunks "src_" (t_name t) (t_source_address t)) (named_chunks "dst_" (t_name t) (t_destination_address t))). intros l.
  assert (G : forall k, 0 <= k -> NoDup (map (fun x : Z * (list net * list net) => t_name (set_name (t_name t ++ "_" ++ dec (fst x))%string (set_source_address (fst (snd x)) (set_destination_address (snd (snd x)) t)))) (numbered k l))).
  2: { apply (G 0). lia. }
  induction l as [|x l IH]; intros k K; [constructor|]. cbn [numbered map]. constructor; [|apply IH; lia]. intros I. apply in_map_iff in I. destruct I as ((j & y) & E & I).
  cbn [fst snd] in E. change ((t_name t ++ "_" ++ dec j)%string = (t_name t ++ "_" ++ dec k)%string) in E.
  apply append_inj_l in E. pose proof (numbered_ge _ _ _ _ I). apply append_inj_l in E. apply dec_inj in E; lia.
Qed.

(** ** Expired terms *)
Definition unexpired (today : Z) (f : srx_header * list term) : srx_header * list term := (fst f, filter (fun t => negb (expired today t)) (snd f)).
Lemma large_expired vs today t u : In u (fix_large_term vs t) -> expired today u = expired today t.
Proof.
  unfold fix_large_term. destruct (1023 <? byte_length vs t); [|intros [<-|[]]; reflexivity]. intros I. apply in_map_iff in I. destruct I as (kp & <- & _). reflexivity.
Qed.
Lemma filter_same {A} (f : A -> bool) l : (forall x, In x l -> f x = true) -> filter f l = l.
Proof. induction l as [|x l IH]; intros H; [reflexivity|]. cbn [filter]. rewrite (H x (or_introl eq_refl)), IH; [reflexivity|]. intros y I. apply H. right. exact I. Qed.
Lemma filter_none {A} (f : A -> bool) l : (forall x, In x l -> f x = false) -> filter f l = [].
Proof. induction l as [|x l IH]; intros H; [reflexivity|]. cbn [filter]. rewrite (H x (or_introl eq_refl)), IH; [reflexivity|]. intros y I. apply H. right. exact I. Qed.
Lemma large_filter vs today terms : fix_large vs (filter (fun t => negb (expired today t)) terms) = filter (fun t => negb (expired today t)) (fix_large vs terms).
Proof.
  induction terms as [|t terms IH]; [reflexivity|]. cbn [filter]. change (fix_large vs (t :: terms)) with (fix_large_term vs t ++ fix_large vs terms). rewrite filter_app, <- IH.
  destruct (expired today t) eqn:E; cbn [negb].
  - rewrite (filter_none _ (fix_large_term vs t)); [reflexivity|]. intros u I. rewrite (large_expired vs today t u I), E. reflexivity.
  - rewrite (filter_same _ (fix_large_term vs t)); [reflexivity|]. intros u I. rewrite (large_expired vs today t u I), E. reflexivity.
Qed.
Lemma terms_unexpired c today : forall terms seen seen' st r, incl seen' seen -> srx_terms c today seen st terms = Ok r ->
  srx_terms c today seen' st (filter (fun t => negb (expired today t)) terms) = Ok r.
Proof.
  induction terms as [|t terms IH]; intros seen seen' st r I H; [exact H|]. cbn [srx_terms] in H. cbn [filter].
  destruct (expired today t) eqn:E; cbn [negb].
  - destruct (srx_skipped t); [exact (IH _ _ _ _ I H)|]. apply bind_ok in H. destruct H as (n & _ & H). destruct (str_in n seen); [discriminate H|].
    apply (IH (n :: seen) seen'); [intros x J; right; apply I, J|exact H].
  - cbn [srx_terms]. rewrite E. destruct (srx_skipped t); [exact (IH _ _ _ _ I H)|]. apply bind_ok in H. destruct H as (n & En & H). rewrite En. cbn [bind].
    destruct (str_in n seen) eqn:S; [discriminate H|]. assert (S' : str_in n seen' = false).
    { destruct (str_in n seen') eqn:X; [|reflexivity]. apply str_in_spec in X. apply I in X. apply str_in_spec in X. congruence. }
    rewrite S'. destruct (srx_term c st (set_name n t)) as [(st1 & one)|e]; [|discriminate H]. cbn [bind] in *.
    destruct (srx_terms c today (n :: seen) st1 terms) as [(st2 & more)|e] eqn:E2; [|discriminate H]. cbn [bind] in H.
    rewrite (IH (n :: seen) (n :: seen') st1 _ ltac:(intros x [->|J]; [left; reflexivity|right; apply I, J]) E2). exact H.
Qed.
Lemma config_fewer book opts terms keep c : srx_config book opts terms = Ok c -> srx_config book opts (filter keep terms) = Ok c.
Proof.
  unfold srx_config. destruct opts as [|k1 [|from [|k2 [|to extra]]]]; try discriminate. intros H.
  destruct (negb (String.eqb k1 "from-zone") || negb (String.eqb k2 "to-zone") || str_in from srx_options || str_in to srx_options); [discriminate H|].
  destruct (negb (String.eqb from "all" && String.eqb to "all")); cbn [andb] in *; [|exact H].
  destruct (existsb (fun t => some (t_source_zone t) || some (t_destination_zone t)) terms) eqn:E; [discriminate H|].
  assert (E' : existsb (fun t => some (t_source_zone t) || some (t_destination_zone t)) (filter keep terms) = false).
  { clear H. induction terms as [|t terms IH]; [reflexivity|]. cbn [existsb] in E. apply orb_false_iff in E. destruct E as (E1 & E2). cbn [filter]. destruct (keep t); [|exact (IH E2)].
    cbn [existsb]. rewrite E1. exact (IH E2). }
  rewrite E'. exact H.
Qed.
Lemma filters_unexpired today : forall fs book st r, srx_filters today book st fs = Ok r -> srx_filters today book st (map (unexpired today) fs) = Ok r.
Proof.
  induction fs as [|(h, terms) fs IH]; intros book st r H; [exact H|]. cbn [map]. unfold unexpired at 1. cbn [srx_filters fst snd] in *.
  destruct (sh_options h) as [opts|]; [|exact (IH _ _ _ H)]. apply bind_ok in H. destruct H as (c & Ec & H). rewrite (config_fewer _ _ _ _ _ Ec). cbn [bind].
  destruct (srx_terms c today [] st (fix_large (sc_vers c) terms)) as [(st1 & ps)|e] eqn:E1; [|discriminate H]. cbn [bind] in H.
  rewrite large_filter, (terms_unexpired _ _ _ _ _ _ _ (incl_refl _) E1). cbn [bind].
  destruct (srx_filters today (Some (sc_global c)) st1 fs) as [(z & more)|e] eqn:E2; [|discriminate H]. rewrite (IH _ _ _ E2). exact H.
Qed.
Lemma srx_unexpired today fs lines : srx_text today fs = Ok lines -> srx_text today (map (unexpired today) fs) = Ok lines.
Proof.
  unfold srx_text. intros H. apply bind_ok in H. destruct H as ([] & Ck & H).
  assert (Ck' : check_tokens "srx" srx_tokens (map (fun f : srx_header * list term => (match sh_options (fst f) with Some _ => ["srx"] | None => [] end, snd f)) (map (unexpired today) fs)) = Ok tt).
  { rewrite check_tokens_spec in *. destruct Ck as (Ck0 & Ck). split; [exact Ck0|]. intros ps ts t I1 I2 I3. rewrite map_map in I1. apply in_map_iff in I1. destruct I1 as (f & E & I1). apply pair_equal_spec in E. destruct E as (E1 & E2). cbn [unexpired fst snd] in E1, E2.
    subst ts. apply filter_In in I3. destruct I3 as (I3 & _). apply (Ck ps (snd f) t); [|exact I2|exact I3]. apply in_map_iff. exists f. split; [rewrite <- E1; reflexivity|exact I1]. }
  rewrite Ck'. cbn [bind]. destruct (srx_filters today None ([], []) fs) as [r|e] eqn:E; [|discriminate H]. rewrite (filters_unexpired _ _ _ _ _ E). exact H.
Qed.
