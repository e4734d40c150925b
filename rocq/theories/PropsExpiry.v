(** Theorem C40 for OpenConfig, SONiC, Kubernetes, Aruba and Cisco ASA: without its expired terms
    a policy gives the same output. *)
From Verif Require Import ModelAsa ModelAruba ModelSonic ModelK8s ModelOpenConfig SpecCisco BaseFacts CiscoGroupAcl.
Require Import Lia ZifyBool.
Open Scope string_scope. Open Scope list_scope. Open Scope Z_scope.

(** The policy without its expired terms. *)
Definition without_expired {H} (today : Z) (fs : list (H * list term)) : list (H * list term) :=
  map (fun f => (fst f, filter (valid_on today) (snd f))) fs.

Lemma expired_valid : forall today t, expired today t = negb (valid_on today t).
Proof. intros. unfold expired, valid_on. destruct (t_expiration t); [lia|reflexivity]. Qed.

Lemma tokens_fewer : forall {H} platform k (names : H -> list string) (p : term -> bool) (fs : list (H * list term)),
  check_tokens platform k (map (fun f => (names (fst f), snd f)) fs) = Ok tt ->
  check_tokens platform k (map (fun f => (names (fst f), snd f)) (map (fun f => (fst f, filter p (snd f))) fs)) = Ok tt.
Proof.
  intros H platform k names p fs. unfold check_tokens. destruct (get_supported_tokens k) as [k'|]; cbn [bind]; [|discriminate].
  set (bad := fun f : list string * list term => str_in platform (fst f) && existsb (fun t => active_on platform t && existsb (field_error k') (term_fields t)) (snd f)).
  intros C. destruct (existsb bad (map (fun f => (names (fst f), snd f)) fs)) eqn:E; [discriminate|].
  replace (existsb bad (map (fun f => (names (fst f), snd f)) (map (fun f => (fst f, filter p (snd f))) fs))) with false; [reflexivity|].
  symmetry. apply not_true_is_false. intros B. apply existsb_exists in B. destruct B as (x & I & B).
  rewrite map_map in I. cbn [fst snd] in I. apply in_map_iff in I. destruct I as (f & <- & I).
  assert (T : existsb bad (map (fun f => (names (fst f), snd f)) fs) = true); [|congruence].
  apply existsb_exists. exists (names (fst f), snd f). split; [apply in_map_iff; eauto|].
  unfold bad in *. cbn [fst snd] in *. apply andb_prop in B. destruct B as (B1 & B2). rewrite B1. cbn [andb].
  apply existsb_exists in B2. destruct B2 as (t & I2 & B2). apply filter_In in I2. apply existsb_exists. exists t. tauto.
Qed.
Lemma tokens_unit : forall platform k fs u, check_tokens platform k fs = Ok u -> check_tokens platform k fs = Ok tt.
Proof. intros. destruct u. assumption. Qed.

Lemma mapM_pointwise : forall {A B} (f g : A -> res B) l, (forall x, In x l -> f x = g x) -> mapM f l = mapM g l.
Proof.
  induction l as [|x l IH]; intros E; [reflexivity|]. cbn [mapM]. rewrite (E x (or_introl eq_refl)), IH; [reflexivity|].
  intros y I. apply E. right. exact I.
Qed.
Lemma mapM_over_map : forall {A B C} (f : B -> res C) (g : A -> B) l, mapM f (map g l) = mapM (fun x => f (g x)) l.
Proof. induction l as [|x l IH]; [reflexivity|]. cbn [mapM map]. rewrite IH. reflexivity. Qed.
Lemma live_twice : forall today ts,
  filter (fun t => negb (expired today t)) (filter (valid_on today) ts) = filter (fun t => negb (expired today t)) ts.
Proof.
  induction ts as [|t ts IH]; [reflexivity|]. cbn [filter]. rewrite expired_valid. destruct (valid_on today t) eqn:E; cbn [negb filter].
  - rewrite expired_valid, E. cbn [negb]. rewrite IH. reflexivity.
  - exact IH.
Qed.

(** Aruba session access lists *)
Theorem C40_expired_never_rendered_aruba : forall today fs, ar_text today (without_expired today fs) = ar_text today fs.
Proof.
  intros. unfold ar_text, without_expired. rewrite mapM_over_map.
  replace (mapM (fun x => ar_filter today (fst x, filter (valid_on today) (snd x))) fs) with (mapM (ar_filter today) fs); [reflexivity|].
  apply mapM_pointwise. intros f _. unfold ar_filter. cbn [fst snd]. rewrite live_twice. reflexivity.
Qed.
Print Assumptions C40_expired_never_rendered_aruba.

(** Cisco ASA access lists *)
Theorem C40_expired_never_rendered_asa : forall today fs text, asa_text today fs = Ok text ->
  asa_text today (without_expired today fs) = Ok text.
Proof.
  intros today fs text. unfold asa_text, without_expired.
  destruct (check_tokens _ _ _) as [u|] eqn:C; cbn [bind]; [|discriminate]. apply tokens_unit in C.
  rewrite (tokens_fewer "ciscoasa" asa_tokens (fun h : asa_header => match fst h with Some _ => ["ciscoasa"] | None => [] end) _ fs C). cbn [bind].
  rewrite mapM_over_map.
  replace (mapM (fun x => asa_filter today (fst x, filter (valid_on today) (snd x))) fs) with (mapM (asa_filter today) fs); [auto|].
  apply mapM_pointwise. intros f _. unfold asa_filter. cbn [fst snd]. rewrite live_twice. reflexivity.
Qed.
Print Assumptions C40_expired_never_rendered_asa.

(** SONiC tables *)
Lemma sn_terms_valid : forall name vs today ts k, sn_terms name vs today k (filter (valid_on today) ts) = sn_terms name vs today k ts.
Proof.
  induction ts as [|t ts IH]; intros k; [reflexivity|]. cbn [filter sn_terms]. rewrite expired_valid. destruct (valid_on today t) eqn:E; cbn [negb].
  - cbn [sn_terms]. rewrite expired_valid, E. cbn [negb]. destruct (sn_each name vs k _) as [(k', es)|]; cbn [bind]; [|reflexivity]. rewrite IH. reflexivity.
  - rewrite IH. cbn [bind]. destruct (sn_terms name vs today k ts) as [(k', es)|]; reflexivity.
Qed.
Lemma sn_filters_valid : forall order today fs k d, sn_filters order today k d (without_expired today fs) = sn_filters order today k d fs.
Proof.
  induction fs as [|(o, ts) fs IH]; intros k d; [reflexivity|]. unfold without_expired in *. cbn [map fst snd sn_filters].
  destruct o as [|name o]; [reflexivity|]. destruct (sn_families order (name :: o)) as [|v vs]; [apply IH|].
  rewrite sn_terms_valid. destruct (sn_terms name (v :: vs) today k ts) as [(k', es)|]; cbn [bind]; [apply IH|reflexivity].
Qed.
Theorem C40_expired_never_rendered_sonic : forall order today fs j, sn_policy order today fs = Ok j ->
  sn_policy order today (without_expired today fs) = Ok j.
Proof.
  intros order today fs j. unfold sn_policy, without_expired. destruct (check_tokens _ _ _) as [u|] eqn:C; cbn [bind]; [|discriminate]. apply tokens_unit in C.
  rewrite (tokens_fewer "sonic" sn_tokens (fun _ : list string => ["sonic"]) _ fs C). cbn [bind]. fold (@without_expired (list string) today fs).
  rewrite sn_filters_valid. auto.
Qed.
Print Assumptions C40_expired_never_rendered_sonic.

(** Kubernetes network policies *)
Lemma k8_terms_valid : forall dir hc today ts names names' js, incl names' names -> k8_terms dir hc today names ts = Ok js ->
  k8_terms dir hc today names' (filter (valid_on today) ts) = Ok js.
Proof.
  induction ts as [|t ts IH]; intros names names' js S H; [exact H|]. cbn [filter k8_terms] in *.
  destruct (t_stateless_reply t) eqn:R.
  - destruct (valid_on today t); [cbn [k8_terms]; rewrite R|]; eapply IH; eassumption.
  - destruct (fix_term_length _ _ _ _ _) as [name|] eqn:F; cbn [bind] in H; [|discriminate H].
    destruct (str_in name names) eqn:N; [discriminate H|]. rewrite expired_valid in H.
    assert (N' : str_in name names' = false).
    { destruct (str_in name names') eqn:E; [|reflexivity]. apply str_in_spec in E. apply S in E. apply str_in_spec in E. congruence. }
    assert (S2 : incl (name :: names') (name :: names)) by (intros x [->|I]; [left; reflexivity|right; apply S; exact I]).
    destruct (valid_on today t) eqn:E; cbn [negb] in H.
    + cbn [k8_terms]. rewrite R, F. cbn [bind]. rewrite N', expired_valid, E. cbn [negb].
      destruct (some (t_option t)); [discriminate H|]. destruct (negb (active_on "k8s" t)); [eapply IH; eassumption|].
      destruct (k8_init dir t) as [b|]; cbn [bind] in *; [|discriminate H].
      match type of H with (bind ?X _) = _ => destruct X as [new|]; cbn [bind] in *; [|discriminate H] end.
      destruct (k8_terms dir hc today (name :: names) ts) as [more|] eqn:M; cbn [bind] in H; [|discriminate H].
      rewrite (IH _ _ _ S2 M). exact H.
    + eapply IH; [|exact H]. intros x I. right. apply S. exact I.
Qed.
Lemma k8_filters_valid : forall today fs js, k8_filters today fs = Ok js -> k8_filters today (without_expired today fs) = Ok js.
Proof.
  induction fs as [|((o, hc), ts) fs IH]; intros js H; [exact H|]. unfold without_expired in *. cbn [map fst snd k8_filters] in *.
  destruct (k8_terms (k8_way o) hc today [] ts) as [items|] eqn:I; cbn [bind] in H; [|discriminate H].
  rewrite (k8_terms_valid _ _ _ _ _ [] _ (incl_refl _) I). cbn [bind].
  destruct (k8_filters today fs) as [more|]; cbn [bind] in H; [|discriminate H]. rewrite (IH _ eq_refl). exact H.
Qed.
Theorem C40_expired_never_rendered_k8s : forall today fs js, k8_policy today fs = Ok js -> k8_policy today (without_expired today fs) = Ok js.
Proof.
  intros today fs js. unfold k8_policy, without_expired. destruct (check_tokens _ _ _) as [u|] eqn:C; cbn [bind]; [|discriminate]. apply tokens_unit in C.
  rewrite (tokens_fewer "k8s" k8_tokens (fun _ : list string * list string => ["k8s"]) _ fs C). cbn [bind]. apply k8_filters_valid.
Qed.
Print Assumptions C40_expired_never_rendered_k8s.

(** OpenConfig access lists *)
Lemma flatten_expiration : forall t u, flatten_all t = Ok u -> t_expiration u = t_expiration t.
Proof.
  intros t u. unfold flatten_all. destruct (negb _); [intros E; inversion E; reflexivity|].
  destruct (if some (t_source_address_exclude (set_flattened true t)) then _ else _) as [t1|] eqn:E1; cbn [bind]; [|discriminate].
  assert (X1 : t_expiration t1 = t_expiration t).
  { destruct (some (t_source_address_exclude (set_flattened true t))); [|inversion E1; reflexivity].
    destruct (address_list_exclude (t_source_address (set_flattened true t)) (t_source_address_exclude (set_flattened true t)) false); cbn [bind] in E1; [inversion E1; reflexivity|discriminate E1]. }
  destruct (if some (t_destination_address_exclude t1) then _ else _) as [t2|] eqn:E2; cbn [bind]; [|discriminate].
  assert (X2 : t_expiration t2 = t_expiration t1).
  { destruct (some (t_destination_address_exclude t1)); [|inversion E2; reflexivity].
    destruct (address_list_exclude (t_destination_address t1) (t_destination_address_exclude t1) false); cbn [bind] in E2; [inversion E2; reflexivity|discriminate E2]. }
  destruct (some (t_address_exclude t2)).
  - destruct (address_list_exclude (t_address t2) (t_address_exclude t2) false); cbn [bind]; [|discriminate]. intros E. inversion E. cbn [t_expiration set_address set_flattened_addr]. congruence.
  - intros E. inversion E. congruence.
Qed.
Lemma init_valid : forall today x y, oc_init x = Ok y -> valid_on today (fst y) = valid_on today (fst x).
Proof.
  intros today x y. unfold oc_init. destruct (init_protocols (snd x)); cbn [bind]; [|discriminate].
  destruct (flatten_all (fst x)) as [u|] eqn:F; cbn [bind]; [|discriminate]. intros E. inversion E. cbn [fst].
  unfold valid_on. rewrite (flatten_expiration _ _ F). reflexivity.
Qed.
Lemma oc_terms_valid : forall v today xs seq r kept, oc_terms v today seq xs = Ok (r, kept) ->
  oc_terms v today seq (filter (fun x => valid_on today (fst x)) xs) = Ok (r, filter (fun x => valid_on today (fst x)) kept).
Proof.
  induction xs as [|x xs IH]; intros seq r kept H.
  - cbn [oc_terms] in H. inversion H. reflexivity.
  - cbn [filter oc_terms] in *. rewrite expired_valid in H. destruct (valid_on today (fst x)) eqn:E; cbn [negb] in H.
    + cbn [oc_terms]. rewrite expired_valid, E. cbn [negb].
      destruct (_ || _ || false).
      * destruct (oc_terms v today seq xs) as [(r', kept')|] eqn:O; cbn [bind] in H; [|discriminate H]. inversion H; subst r' kept.
        rewrite (IH _ _ _ O). cbn [bind filter]. rewrite E. reflexivity.
      * destruct (existsb _ (t_option (fst x))); [discriminate H|].
        destruct (oc_init x) as [y|] eqn:I; cbn [bind] in *; [|discriminate H].
        destruct (oc_term v seq y) as [(seq', es)|]; cbn [bind] in *; [|discriminate H].
        destruct (oc_terms v today seq' xs) as [(r', kept')|] eqn:O; cbn [bind] in H; [|discriminate H]. inversion H; subst r kept.
        rewrite (IH _ _ _ O). cbn [bind filter]. rewrite (init_valid today x y I), E. reflexivity.
    + rewrite orb_true_r in H. destruct (oc_terms v today seq xs) as [(r', kept')|] eqn:O; cbn [bind] in H; [|discriminate H]. inversion H; subst r' kept.
      rewrite (IH _ _ _ O). cbn [filter]. rewrite E. reflexivity.
Qed.
Lemma oc_sets_valid : forall today af options vs seq xs r, oc_sets today af options vs seq xs = Ok r ->
  oc_sets today af options vs seq (filter (fun x => valid_on today (fst x)) xs) = Ok r.
Proof.
  induction vs as [|v vs IH]; intros seq xs r H; [exact H|]. cbn [oc_sets] in *.
  destruct (oc_terms v today seq xs) as [(q, kept)|] eqn:O; cbn [bind] in H; [|discriminate H].
  rewrite (oc_terms_valid _ _ _ _ _ _ O). cbn [bind].
  destruct (oc_sets today af options vs (fst q) kept) as [(s, more)|] eqn:M; cbn [bind] in H; [|discriminate H].
  rewrite (IH _ _ _ M). exact H.
Qed.
Lemma protocols_valid : forall today ts,
  map (fun t => (t, map PName (t_protocol t))) (filter (valid_on today) ts)
  = filter (fun x : term * list pval => valid_on today (fst x)) (map (fun t => (t, map PName (t_protocol t))) ts).
Proof. induction ts as [|t ts IH]; [reflexivity|]. cbn [filter map fst]. destruct (valid_on today t); cbn [map]; rewrite IH; reflexivity. Qed.
Lemma oc_filters_valid : forall order today fs seq js, oc_filters order today seq fs = Ok js ->
  oc_filters order today seq (without_expired today fs) = Ok js.
Proof.
  induction fs as [|(o, ts) fs IH]; intros seq js H; [exact H|]. unfold without_expired in *. cbn [map fst snd oc_filters] in *.
  destruct (oc_options order o) as (af, options). rewrite protocols_valid.
  destruct (oc_sets today af options (oc_families af) seq (map (fun t => (t, map PName (t_protocol t))) ts)) as [(s, sets)|] eqn:S; cbn [bind] in H; [|discriminate H].
  rewrite (oc_sets_valid _ _ _ _ _ _ _ S). cbn [bind].
  destruct (oc_filters order today s fs) as [more|] eqn:M; cbn [bind] in H; [|discriminate H]. rewrite (IH _ _ M). exact H.
Qed.
Theorem C40_expired_never_rendered_openconfig : forall order today fs j, oc_policy order today fs = Ok j ->
  oc_policy order today (without_expired today fs) = Ok j.
Proof.
  intros order today fs j. unfold oc_policy, without_expired. destruct (check_tokens _ _ _) as [u|] eqn:C; cbn [bind]; [|discriminate]. apply tokens_unit in C.
  rewrite (tokens_fewer "openconfig" oc_tokens (fun _ : list string => ["openconfig"]) _ fs C). cbn [bind].
  destruct (oc_filters order today 0 fs) as [sets|] eqn:F; cbn [bind]; [|discriminate]. intros H. fold (@without_expired (list string) today fs).
  rewrite (oc_filters_valid _ _ _ _ _ F). exact H.
Qed.
Print Assumptions C40_expired_never_rendered_openconfig.

(** A policy with an expired term, for all five generators. *)
Definition xold : term := Eval vm_compute in set_expiration (Some 50) (set_action ["accept"] (set_protocol ["tcp"] (blank "old"))).
Definition xnew : term := Eval vm_compute in set_destination_port [(80, 80)] (set_action ["accept"] (set_protocol ["tcp"] (blank "new"))).
Example C40_others_example :
  without_expired 100 [(["f"], [xold; xnew])] = [(["f"], [xnew])] /\ without_expired 49 [(["f"], [xold; xnew])] = [(["f"], [xold; xnew])] /\
  (exists s, ar_text 100 [(Some ["f"], [xold; xnew])] = Ok s) /\
  (exists s, asa_text 100 [((Some ["f"], []), [xold; xnew])] = Ok s) /\
  (exists j, sn_policy [V4; V6] 100 [(["f"; "inet"], [xold; xnew])] = Ok j) /\
  (exists j, k8_policy 100 [((["INGRESS"], []), [xold; set_source_address [plain V4 167772160 8] xnew])] = Ok j) /\
  (exists j, oc_policy ["inet"] 100 [(["f"; "inet"], [xold; xnew])] = Ok j).
Proof. repeat split; try (vm_compute; reflexivity); vm_compute; eauto. Qed.
