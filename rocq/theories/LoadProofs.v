(** Loading definition files. *)
From Coq Require Import Lia Sorted Relations Permutation.
From Verif Require Import BaseFacts PyStrFacts SpecNaming NamingProofs.
Local Open Scope string_scope.

Lemma token_like_spec v : token_like v = true <-> looks_like_token v.
Proof.
  unfold token_like, looks_like_token. rewrite not_occurs. destruct v as [|c v].
  - split; [discriminate|]. intros [[c [r [H _]]] _]. discriminate.
  - rewrite andb_true_iff, negb_true_iff. split; intros [H1 H2]; (split; [|assumption]).
    + exists c, v. auto.
    + destruct H1 as [c' [r [[= <- <-] H]]]. exact H.
Qed.

(** ** Every loaded table is well formed *)
Definition item_ok (i : string) : Prop := exists v c, item_says i v c.

Lemma add_item_keys k x t : map fst (add_item k x t) = map fst t.
Proof. induction t as [|[k' v] t IH]; simpl; [reflexivity|]. destruct (String.eqb k k'); simpl; congruence. Qed.
Lemma add_item_in k x t k' items i : In (k', items) (add_item k x t) -> In i items ->
  (exists old, In (k', old) t /\ In i old) \/ (i = x /\ k' = k).
Proof.
  induction t as [|[k0 v] t IH]; simpl; [intros []|]. destruct (String.eqb k k0) eqn:E.
  - apply String.eqb_eq in E. subst. intros [[= <- <-]|H] Hi.
    + apply in_app_or in Hi. destruct Hi as [Hi|[<-|[]]]; [left; exists v; auto|right; auto].
    + left. exists items. auto.
  - intros [[= <- <-]|H] Hi; [left; exists v; auto|].
    destruct (IH H Hi) as [[old [H1 H2]]|H']; [left; exists old; auto|right; assumption].
Qed.
Lemma add_item_wf k x t : item_ok x -> well_formed t -> well_formed (add_item k x t).
Proof.
  intros Hx [N W]. split; [rewrite add_item_keys; assumption|]. intros k' items i H Hi.
  destruct (add_item_in _ _ _ _ _ _ H Hi) as [[old [H1 H2]]|[-> ->]]; [apply (W _ _ _ H1 H2)|assumption].
Qed.
Lemma new_entry_wf k t : defined k t = false -> well_formed t -> well_formed (t ++ [(k, [])])%list.
Proof.
  intros Hd [N W]. split.
  - rewrite map_app. simpl. apply (Permutation_NoDup (l := k :: map fst t)).
    + apply Permutation_cons_append.
    + constructor; [|assumption]. fold (has_definition t k). rewrite <- defined_has, Hd. discriminate.
  - intros k' items i H Hi. apply in_app_or in H. destruct H as [H|[[= <- <-]|[]]]; [apply (W _ _ _ H Hi)|destruct Hi].
Qed.

Definition st_wf (st : nstate) : Prop := well_formed (n_services st) /\ well_formed (n_networks st).

Lemma note_unseen_tables k v st : n_services (note_unseen k v st) = n_services st /\
  n_networks (note_unseen k v st) = n_networks st /\ n_cur (note_unseen k v st) = n_cur st /\
  n_unit (note_unseen k v st) = n_unit st.
Proof. destruct k; simpl; [destruct (defined v (n_services st) || str_in v (n_unseen_services st))|destruct (defined v (n_networks st) || str_in v (n_unseen_networks st))]; simpl; auto. Qed.

Lemma add_value_wf k c st v : word v -> st_wf st -> st_wf (add_value k c st v).
Proof.
  intros Hw [H1 H2]. unfold add_value. destruct (is_empty (n_cur st)); [split; assumption|].
  assert (A : forall x, item_ok x -> st_wf (append_to_unit st x)).
  { intros x Hx. unfold append_to_unit. destruct (n_unit st) as [[[|] s]|]; split; simpl; try assumption;
      apply add_item_wf; assumption. }
  destruct (nonempty c).
  - apply A. exists v, (lstrip c). apply (is_commented v c Hw).
  - assert (B : st_wf (append_to_unit st v)) by (apply A; exists v, ""; constructor; assumption).
    destruct (token_like v); [|exact B]. unfold st_wf. destruct (note_unseen_tables k v (append_to_unit st v)) as [-> [-> _]]. exact B.
Qed.

Lemma add_values_wf k c vs : forall st, Forall word vs -> st_wf st -> st_wf (fold_left (add_value k c) vs st).
Proof.
  induction vs as [|v vs IH]; intros st Hv H; simpl; [assumption|]. inversion Hv as [|? ? H1 H2]; subst.
  apply IH; [assumption|]. apply add_value_wf; assumption.
Qed.

Lemma start_definition_wf k s v st st' : start_definition k s v st = Ok st' -> st_wf st -> st_wf st'.
Proof.
  intros H [H1 H2]. destruct k; cbn [start_definition] in H.
  - destruct (negb _); [discriminate|]. destruct (defined s (n_services st)) eqn:E; [discriminate|].
    injection H as <-. split; simpl; [apply new_entry_wf; assumption|assumption].
  - destruct (defined s (n_networks st)) eqn:E; [discriminate|].
    injection H as <-. split; simpl; [assumption|apply new_entry_wf; assumption].
Qed.

Lemma words_of s : has_char "#" s = false -> Forall word (split_ws s).
Proof.
  intros H. rewrite Forall_forall. intros w Hw. destruct (split_ws_words _ _ Hw) as [H1 [H2 H3]].
  apply word_intro; try assumption. destruct (has_char "#" w) eqn:E; [|reflexivity]. apply H3 in E. congruence.
Qed.

Lemma split_eq_hash body x : In x (split_char "=" body) -> has_char "#" body = false -> has_char "#" x = false.
Proof.
  intros H Hb. destruct (split_char_sub _ _ _ H) as [_ H2]. destruct (has_char "#" x) eqn:E; [|reflexivity].
  apply H2 in E. congruence.
Qed.

Lemma parse_line_wf k st raw st' : parse_line k st raw = Ok st' -> st_wf st -> st_wf st'.
Proof.
  intros H W. unfold parse_line in H. destruct (is_empty (strip raw) || starts_with "#" (strip raw)); [injection H as <-; assumption|].
  set (comment := if has_char "#" (strip raw) then after_char "#" (strip raw) else "") in *.
  set (body := before_char "#" (strip raw)) in *.
  assert (Hb : has_char "#" body = false) by apply before_char_has.
  destruct (split_char "=" body) as [|a [|b l]] eqn:E; [injection H as <-; assumption| |].
  - injection H as <-. apply add_values_wf; [|assumption]. apply words_of. apply (split_eq_hash body); [rewrite E; left; reflexivity|assumption].
  - apply bind_ok in H. destruct H as [st1 [H1 H2]]. injection H2 as <-. apply add_values_wf.
    + apply words_of. apply (split_eq_hash body); [rewrite E; right; left; reflexivity|assumption].
    + apply (start_definition_wf _ _ _ _ _ H1 W).
Qed.
Lemma parse_lines_wf k ls : forall st st', parse_lines k st ls = Ok st' -> st_wf st -> st_wf st'.
Proof.
  induction ls as [|l ls IH]; intros st st' H W; cbn [parse_lines] in H; [injection H as <-; assumption|].
  apply bind_ok in H. destruct H as [st1 [H1 H2]]. apply (IH _ _ H2). apply (parse_line_wf _ _ _ _ H1 W).
Qed.
Lemma init_wf : st_wf n_init.
Proof. split; (split; [constructor|intros k items i []]). Qed.

Lemma load_parts svc net st : load svc net = Ok st ->
  exists st1, parse_lines Services n_init svc = Ok st1 /\ n_unseen_services st1 = [] /\
    parse_lines Networks st1 net = Ok st /\ n_unseen_networks st = [].
Proof.
  unfold load. intros H. apply bind_ok in H. destruct H as [st1 [H1 H]]. exists st1. split; [assumption|].
  destruct (n_unseen_services st1) eqn:E1; [|discriminate]. split; [reflexivity|].
  apply bind_ok in H. destruct H as [st2 [H2 H]]. destruct (n_unseen_networks st2) eqn:E2; [|discriminate].
  injection H as <-. auto.
Qed.
Theorem load_wf svc net st : load svc net = Ok st -> well_formed (n_services st) /\ well_formed (n_networks st).
Proof.
  intros H. destruct (load_parts _ _ _ H) as [st1 [H1 [_ [H2 _]]]].
  apply (parse_lines_wf _ _ _ _ H2), (parse_lines_wf _ _ _ _ H1), init_wf.
Qed.

(** ** Undefined tokens *)
Definition tab (k : kind) (st : nstate) : table := match k with Services => n_services st | Networks => n_networks st end.
Definition unseen (k : kind) (st : nstate) : list string :=
  match k with Services => n_unseen_services st | Networks => n_unseen_networks st end.

(** Every bare token-like item is defined or remembered. *)
Definition seen_inv (k : kind) (st : nstate) : Prop :=
  forall T items v, In (T, items) (tab k st) -> In v items -> has_char "#" v = false -> token_like v = true ->
    has_definition (tab k st) v \/ In v (unseen k st).

(** While parsing services, the unit is a service. *)
Definition unit_ok (k : kind) (st : nstate) : Prop :=
  k = Services -> match n_unit st with Some (Networks, _) => False | _ => True end.

Lemma tab_append_keys k st x : map fst (tab k (append_to_unit st x)) = map fst (tab k st).
Proof. unfold append_to_unit. destruct (n_unit st) as [[[|] s]|]; destruct k; simpl; rewrite ?add_item_keys; reflexivity. Qed.
Lemma unseen_append k st x : unseen k (append_to_unit st x) = unseen k st.
Proof. unfold append_to_unit. destruct (n_unit st) as [[[|] s]|]; destruct k; reflexivity. Qed.
Lemma tab_append_in k st x T items i : In (T, items) (tab k (append_to_unit st x)) -> In i items ->
  (exists old, In (T, old) (tab k st) /\ In i old) \/ i = x.
Proof.
  unfold append_to_unit. intros H Hi. destruct (n_unit st) as [[[|] s]|]; destruct k; simpl in *;
   try (left; exists items; split; assumption);
   (destruct (add_item_in _ _ _ _ _ _ H Hi) as [Hd|[Hd _]]; [left; assumption|right; assumption]).
Qed.
Lemma note_unseen_spec k v st : tab k (note_unseen k v st) = tab k st /\
  (forall x, In x (unseen k (note_unseen k v st)) <->
     In x (unseen k st) \/ (x = v /\ ~ has_definition (tab k st) v)).
Proof.
  destruct k; simpl.
  - destruct (defined v (n_services st)) eqn:E1; simpl.
    + apply defined_has in E1. split; [reflexivity|]. intros x. intuition congruence.
    + assert (Hn : ~ has_definition (n_services st) v) by (rewrite <- defined_has, E1; discriminate).
      destruct (str_in v (n_unseen_services st)) eqn:E2; simpl; (split; [reflexivity|]); intros x.
      * apply str_in_spec in E2. intuition congruence.
      * rewrite in_app_iff. simpl. intuition.
  - destruct (defined v (n_networks st)) eqn:E1; simpl.
    + apply defined_has in E1. split; [reflexivity|]. intros x. intuition congruence.
    + assert (Hn : ~ has_definition (n_networks st) v) by (rewrite <- defined_has, E1; discriminate).
      destruct (str_in v (n_unseen_networks st)) eqn:E2; simpl; (split; [reflexivity|]); intros x.
      * apply str_in_spec in E2. intuition congruence.
      * rewrite in_app_iff. simpl. intuition.
Qed.

Lemma add_value_seen k c st v : seen_inv k st -> seen_inv k (add_value k c st v).
Proof.
  intros H. unfold add_value. destruct (is_empty (n_cur st)); [assumption|].
  assert (K : forall x U, has_definition (tab k st) U <-> has_definition (tab k (append_to_unit st x)) U)
    by (intros x U; unfold has_definition; rewrite tab_append_keys; reflexivity).
  destruct (nonempty c).
  - intros T items w HT Hw Hh Ht. rewrite unseen_append. rewrite <- K.
    destruct (tab_append_in _ _ _ _ _ _ HT Hw) as [[old [H1 H2]]| ->]; [apply (H _ _ _ H1 H2 Hh Ht)|].
    exfalso. rewrite has_char_app in Hh. apply orb_false_iff in Hh. destruct Hh as [_ Hh].
    change (has_char "#" (" # " ++ c)) with true in Hh. discriminate.
  - assert (B : forall T items w, In (T, items) (tab k (append_to_unit st v)) -> In w items -> has_char "#" w = false -> token_like w = true ->
       has_definition (tab k (append_to_unit st v)) w \/ In w (unseen k (append_to_unit st v)) \/ w = v).
    { intros T items w HT Hw Hh Ht. rewrite unseen_append. rewrite <- K.
      destruct (tab_append_in _ _ _ _ _ _ HT Hw) as [[old [H1 H2]]| ->]; [|auto].
      destruct (H _ _ _ H1 H2 Hh Ht); auto. }
    destruct (token_like v) eqn:Et.
    + destruct (note_unseen_spec k v (append_to_unit st v)) as [HT HU].
      intros T items w HTi Hw Hh Ht. rewrite HT in *. rewrite HU. destruct (B _ _ _ HTi Hw Hh Ht) as [H1|[H1| ->]]; auto.
      destruct (in_dec string_dec v (map fst (tab k (append_to_unit st v)))) as [Hd|Hd]; [left; exact Hd|right; right; auto].
    + intros T items w HTi Hw Hh Ht. destruct (B _ _ _ HTi Hw Hh Ht) as [H1|[H1| ->]]; auto. congruence.
Qed.
Lemma add_values_seen k c vs : forall st, seen_inv k st -> seen_inv k (fold_left (add_value k c) vs st).
Proof. induction vs as [|v vs IH]; intros st H; simpl; [assumption|]. apply IH, add_value_seen, H. Qed.

Lemma remove_str_in s l x : In x (remove_str s l) <-> In x l /\ x <> s.
Proof.
  unfold remove_str. rewrite filter_In, negb_true_iff, String.eqb_neq. intuition.
Qed.
Lemma start_definition_eff k s v st st' : start_definition k s v st = Ok st' ->
  tab k st' = (tab k st ++ [(s, [])])%list /\ unseen k st' = remove_str s (unseen k st) /\
  n_cur st' = s /\ n_unit st' = Some (k, s) /\ defined s (tab k st) = false /\
  (forall k', k' <> k -> tab k' st' = tab k' st /\ unseen k' st' = unseen k' st).
Proof.
  intros H. destruct k; cbn [start_definition] in H.
  - destruct (negb _); [discriminate|]. destruct (defined s (n_services st)) eqn:E; [discriminate|].
    injection H as <-. simpl. repeat (split; [auto; fail|]). intros [|] Hk; [congruence|auto].
  - destruct (defined s (n_networks st)) eqn:E; [discriminate|].
    injection H as <-. simpl. repeat (split; [auto; fail|]). intros [|] Hk; [auto|congruence].
Qed.
Lemma start_definition_seen k s v st st' : start_definition k s v st = Ok st' -> seen_inv k st -> seen_inv k st'.
Proof.
  intros H I. destruct (start_definition_eff _ _ _ _ _ H) as [H1 [H2 _]].
  intros T items w HT Hw Hh Ht. rewrite H1 in *. rewrite H2. unfold has_definition. rewrite map_app, in_app_iff, remove_str_in. simpl.
  apply in_app_or in HT. destruct HT as [HT|[[= <- <-]|[]]]; [|destruct Hw].
  destruct (I _ _ _ HT Hw Hh Ht) as [Hd|Hu]; [auto|]. destruct (string_dec w s) as [->|Hne]; [auto|right; auto].
Qed.
Lemma parse_line_seen k st raw st' : parse_line k st raw = Ok st' -> seen_inv k st -> seen_inv k st'.
Proof.
  intros H W. unfold parse_line in H. destruct (is_empty (strip raw) || starts_with "#" (strip raw)); [injection H as <-; assumption|].
  destruct (split_char "=" (before_char "#" (strip raw))) as [|a [|b l]] eqn:E; [injection H as <-; assumption| |].
  - injection H as <-. apply add_values_seen; assumption.
  - apply bind_ok in H. destruct H as [st1 [H1 H2]]. injection H2 as <-. apply add_values_seen.
    apply (start_definition_seen _ _ _ _ _ H1 W).
Qed.
Lemma parse_lines_seen k ls : forall st st', parse_lines k st ls = Ok st' -> seen_inv k st -> seen_inv k st'.
Proof.
  induction ls as [|l ls IH]; intros st st' H W; cbn [parse_lines] in H; [injection H as <-; assumption|].
  apply bind_ok in H. destruct H as [st1 [H1 H2]]. apply (IH _ _ H2). apply (parse_line_seen _ _ _ _ H1 W).
Qed.

(** ** The table not being loaded *)
Definition other_fixed (st st' : nstate) : Prop :=
  n_networks st' = n_networks st /\ n_unseen_networks st' = n_unseen_networks st.
Lemma add_value_unit k c st v : n_unit (add_value k c st v) = n_unit st /\ n_cur (add_value k c st v) = n_cur st.
Proof.
  unfold add_value. destruct (is_empty (n_cur st)) eqn:E; [auto|].
  assert (A : forall x, n_unit (append_to_unit st x) = n_unit st /\ n_cur (append_to_unit st x) = n_cur st)
    by (intros x; unfold append_to_unit; destruct (n_unit st) as [[[|] s]|] eqn:Eu; simpl; auto).
  destruct (nonempty c); [apply A|]. destruct (token_like v); [|apply A].
  destruct (note_unseen_tables k v (append_to_unit st v)) as [_ [_ [-> ->]]]. apply A.
Qed.
(** Adding values to a unit of kind [k] touches only the table of that kind. *)
Lemma add_value_other k c st v s k' : n_unit st = Some (k, s) -> k' <> k ->
  tab k' (add_value k c st v) = tab k' st /\ unseen k' (add_value k c st v) = unseen k' st.
Proof.
  intros Hu Hk. unfold add_value. destruct (is_empty (n_cur st)); [auto|].
  assert (A : forall x, tab k' (append_to_unit st x) = tab k' st /\ unseen k' (append_to_unit st x) = unseen k' st).
  { intros x. unfold append_to_unit. rewrite Hu. destruct k, k'; try congruence; simpl; auto. }
  destruct (nonempty c); [apply A|]. destruct (token_like v); [|apply A].
  destruct (A v) as [<- <-]. destruct k, k'; try congruence; simpl.
  - destruct (defined v _ || str_in v _); simpl; auto.
  - destruct (defined v _ || str_in v _); simpl; auto.
Qed.
Lemma add_values_other k c s k' vs : forall st, n_unit st = Some (k, s) -> k' <> k ->
  tab k' (fold_left (add_value k c) vs st) = tab k' st /\ unseen k' (fold_left (add_value k c) vs st) = unseen k' st /\
  n_unit (fold_left (add_value k c) vs st) = Some (k, s).
Proof.
  induction vs as [|v vs IH]; intros st Hu Hk; simpl; [auto|].
  destruct (add_value_unit k c st v) as [U _]. destruct (add_value_other k c st v s k' Hu Hk) as [T1 T2].
  destruct (IH (add_value k c st v)) as [H1 [H2 H3]]; [congruence|assumption|]. rewrite H1, H2, T1, T2. auto.
Qed.

(** No unit yet: values are dropped. *)
Lemma add_values_none k c vs : forall st, n_cur st = "" -> fold_left (add_value k c) vs st = st.
Proof.
  induction vs as [|v vs IH]; intros st H; simpl; [reflexivity|]. unfold add_value at 2. rewrite H. simpl. apply IH, H.
Qed.

Lemma parse_line_other k k' st raw st' s : k' <> k -> parse_line k st raw = Ok st' -> n_unit st = Some (k, s) ->
  tab k' st' = tab k' st /\ unseen k' st' = unseen k' st /\ exists s', n_unit st' = Some (k, s').
Proof.
  intros Hk H Hu. unfold parse_line in H. destruct (is_empty (strip raw) || starts_with "#" (strip raw)); [injection H as <-; eauto|].
  destruct (split_char "=" (before_char "#" (strip raw))) as [|a [|b l]] eqn:E; [injection H as <-; eauto| |].
  - injection H as <-. destruct (add_values_other k (if has_char "#" (strip raw) then after_char "#" (strip raw) else "") s k' (split_ws a) st Hu Hk) as [H1 [H2 H3]]. eauto.
  - apply bind_ok in H. destruct H as [st1 [H1 H2]]. injection H2 as <-.
    destruct (start_definition_eff _ _ _ _ _ H1) as [_ [_ [_ [U [_ O]]]]]. destruct (O k' Hk) as [O1 O2].
    destruct (add_values_other k (if has_char "#" (strip raw) then after_char "#" (strip raw) else "") _ k' (split_ws b) st1 U Hk) as [J1 [J2 J3]].
    rewrite J1, J2, O1, O2. eauto.
Qed.
Lemma parse_lines_other k k' ls : k' <> k -> forall st st' s, parse_lines k st ls = Ok st' -> n_unit st = Some (k, s) ->
  tab k' st' = tab k' st /\ unseen k' st' = unseen k' st.
Proof.
  intros Hk. induction ls as [|l ls IH]; intros st st' s H Hu; cbn [parse_lines] in H; [injection H as <-; auto|].
  apply bind_ok in H. destruct H as [st1 [H1 H2]].
  destruct (parse_line_other _ _ _ _ _ _ Hk H1 Hu) as [J1 [J2 [s' J3]]].
  destruct (IH _ _ _ H2 J3) as [K1 K2]. rewrite K1, K2. auto.
Qed.
Lemma parse_lines_other_start k k' ls : k' <> k -> file_starts_with_def ls -> forall st st', parse_lines k st ls = Ok st' ->
  tab k' st' = tab k' st /\ unseen k' st' = unseen k' st.
Proof.
  intros Hk. induction ls as [|l ls IH]; intros Hs st st' H; cbn [parse_lines] in H; [injection H as <-; auto|].
  apply bind_ok in H. destruct H as [st1 [H1 H2]]. unfold parse_line in H1. cbn [file_starts_with_def] in Hs.
  destruct (is_empty (strip l) || starts_with "#" (strip l)).
  - injection H1 as <-. apply (IH Hs _ _ H2).
  - apply occurs_has in Hs.
    destruct (split_char "=" (before_char "#" (strip l))) as [|a [|b r]] eqn:E.
    + destruct (split_char_nonnil _ _ E).
    + exfalso. rewrite (before_after _ _ Hs), split_char_app in E by apply before_char_has. injection E as _ E. destruct (split_char_nonnil _ _ E).
    + apply bind_ok in H1. destruct H1 as [st0 [H0 H1]]. injection H1 as <-.
      destruct (start_definition_eff _ _ _ _ _ H0) as [_ [_ [_ [U [_ O]]]]]. destruct (O k' Hk) as [O1 O2].
      destruct (add_values_other k (if has_char "#" (strip l) then after_char "#" (strip l) else "") _ k' (split_ws b) st0 U Hk) as [J1 [J2 J3]].
      destruct (parse_lines_other k k' ls Hk _ _ _ H2 J3) as [K1 K2]. rewrite K1, K2, J1, J2, O1, O2. auto.
Qed.

(** While services are loaded no network appears. *)
Lemma services_phase ls st : parse_lines Services n_init ls = Ok st -> n_networks st = [] /\ n_unseen_networks st = [].
Proof.
  assert (G : forall ls st st', parse_lines Services st ls = Ok st' -> n_cur st = "" -> n_unit st = None ->
    n_networks st' = n_networks st /\ n_unseen_networks st' = n_unseen_networks st).
  { clear. induction ls as [|l ls IH]; intros st st' H Hc Hn; cbn [parse_lines] in H; [injection H as <-; auto|].
    apply bind_ok in H. destruct H as [st1 [H1 H2]]. unfold parse_line in H1.
    destruct (is_empty (strip l) || starts_with "#" (strip l)); [injection H1 as <-; eauto|].
    destruct (split_char "=" (before_char "#" (strip l))) as [|a [|b r]] eqn:E; [injection H1 as <-; eauto| |].
    - rewrite add_values_none in H1 by assumption. injection H1 as <-. eauto.
    - apply bind_ok in H1. destruct H1 as [st0 [H0 H1]]. injection H1 as <-.
      destruct (start_definition_eff _ _ _ _ _ H0) as [_ [_ [_ [U [_ O]]]]].
      assert (Hk : Networks <> Services) by discriminate. destruct (O Networks Hk) as [O1 O2].
      destruct (add_values_other Services (if has_char "#" (strip l) then after_char "#" (strip l) else "") _ Networks (split_ws b) st0 U Hk) as [J1 [J2 J3]].
      destruct (parse_lines_other Services Networks ls Hk _ _ _ H2 J3) as [K1 K2]. simpl in *. rewrite K1, K2, J1, J2, O1, O2. auto. }
  intros H. apply (G _ _ _ H); reflexivity.
Qed.

Theorem load_networks_defined svc net st : load svc net = Ok st ->
  forall T items v, In (T, items) (n_networks st) -> In v items -> ~ occurs "#" v -> looks_like_token v ->
    has_definition (n_networks st) v.
Proof.
  intros H T items v HT Hv Hh Ht. destruct (load_parts _ _ _ H) as [st1 [H1 [_ [H2 H3]]]].
  destruct (services_phase _ _ H1) as [N1 _].
  assert (I : seen_inv Networks st).
  { apply (parse_lines_seen _ _ _ _ H2). intros T' i' v' HT'. simpl in HT'. rewrite N1 in HT'. destruct HT'. }
  apply not_occurs in Hh. apply token_like_spec in Ht. destruct (I T items v HT Hv Hh Ht) as [Hd|Hu]; [exact Hd|].
  simpl in Hu. rewrite H3 in Hu. destruct Hu.
Qed.
Theorem load_services_defined svc net st : load svc net = Ok st -> file_starts_with_def net ->
  forall T items v, In (T, items) (n_services st) -> In v items -> ~ occurs "#" v -> looks_like_token v ->
    has_definition (n_services st) v.
Proof.
  intros H Hs T items v HT Hv Hh Ht. destruct (load_parts _ _ _ H) as [st1 [H1 [H0 [H2 H3]]]].
  assert (Hk : Services <> Networks) by discriminate.
  destruct (parse_lines_other_start Networks Services net Hk Hs _ _ H2) as [E _]. simpl in E.
  assert (I : seen_inv Services st1).
  { apply (parse_lines_seen _ _ _ _ H1). intros T' i' v' []. }
  apply not_occurs in Hh. apply token_like_spec in Ht. rewrite E in *. destruct (I T items v HT Hv Hh Ht) as [Hd|Hu]; [exact Hd|].
  simpl in Hu. rewrite H0 in Hu. destruct Hu.
Qed.
