(** A definition document loads to its meaning. *)
From Coq Require Import Lia Sorted Relations Permutation.
From Verif Require Import BaseFacts PyStrFacts SpecNaming NamingProofs LoadProofs.
Local Open Scope string_scope.

Lemma rstrip_app a b : rstrip b <> "" -> rstrip (a ++ b) = a ++ rstrip b.
Proof.
  intros H. induction a as [|c a IH]; [reflexivity|]. cbn [append rstrip]. rewrite IH.
  replace (is_empty (a ++ rstrip b)) with false.
  - rewrite andb_false_r. reflexivity.
  - destruct a; simpl; [|reflexivity]. destruct (rstrip b); [congruence|reflexivity].
Qed.
Lemma lstrip_word n x : word n -> lstrip (n ++ x) = n ++ x.
Proof.
  intros [H1 [H2 _]]. destruct n as [|c n]; [congruence|]. cbn [append lstrip].
  rewrite (H2 c); [reflexivity|left; reflexivity].
Qed.
Lemma rstrip_word n : word n -> rstrip n = n.
Proof. intros H. apply rstrip_no_ws, word_no_ws, H. Qed.

Lemma rstrip_join vs : vs <> [] -> Forall word vs -> rstrip (join " " vs) = join " " vs /\ join " " vs <> "".
Proof.
  induction vs as [|v vs IH]; [congruence|]. intros _ H. inversion H as [|? ? H1 H2]; subst.
  destruct vs as [|w vs].
  - cbn [join]. split; [apply rstrip_word, H1|apply word_ne, H1].
  - destruct IH as [J1 J2]; [discriminate|assumption|]. cbn [join] in *. split.
    + rewrite !rstrip_app; rewrite ?J1; try assumption; try reflexivity.
      rewrite rstrip_app; rewrite J1; [discriminate|assumption].
    + destruct v; [destruct (word_ne _ H1 eq_refl)|discriminate].
Qed.
Lemma lstrip_join vs x : vs <> [] -> Forall word vs -> lstrip (join " " vs ++ x) = join " " vs ++ x.
Proof.
  destruct vs as [|v vs]; [congruence|]. intros _ H. inversion H as [|? ? H1 H2]; subst. destruct vs as [|w vs].
  - apply lstrip_word, H1.
  - cbn [join]. rewrite !str_app_assoc. apply lstrip_word, H1.
Qed.
Lemma split_ws_join vs : vs <> [] -> Forall word vs ->
  split_ws (join " " vs) = vs /\ split_ws (join " " vs ++ " ") = vs.
Proof.
  induction vs as [|v vs IH]; [congruence|]. intros _ H. inversion H as [|? ? H1 H2]; subst.
  destruct vs as [|w vs].
  - cbn [join]. split.
    + apply split_ws_word; [apply word_no_ws, H1|apply word_ne, H1].
    + change (v ++ " ") with (v ++ String " " ""). rewrite split_ws_sep; [reflexivity|apply word_no_ws, H1|apply word_ne, H1].
  - destruct IH as [J1 J2]; [discriminate|assumption|]. split.
    + change (join " " (v :: w :: vs)) with (v ++ String " " (join " " (w :: vs))).
      rewrite split_ws_sep; [rewrite J1; reflexivity|apply word_no_ws, H1|apply word_ne, H1].
    + change (join " " (v :: w :: vs) ++ " ") with ((v ++ String " " (join " " (w :: vs))) ++ " ").
      rewrite str_app_assoc. cbn [append]. rewrite split_ws_sep; [rewrite J2; reflexivity|apply word_no_ws, H1|apply word_ne, H1].
Qed.
Lemma has_char_join c vs : Ascii.eqb " " c = false -> (forall v, In v vs -> has_char c v = false) -> has_char c (join " " vs) = false.
Proof.
  intros Hc. induction vs as [|v vs IH]; intros H; [reflexivity|]. destruct vs as [|w vs]; [apply H; left; reflexivity|].
  change (join " " (v :: w :: vs)) with (v ++ String " " (join " " (w :: vs))). rewrite has_char_app. cbn [has_char].
  rewrite Hc, (H v) by (left; reflexivity). apply IH. intros x Hx. apply H. right. exact Hx.
Qed.

Lemma good_words vs : Forall good_value vs -> Forall word vs.
Proof. intros H. eapply Forall_impl; [|exact H]. intros a [Ha _]. exact Ha. Qed.
Lemma good_no c vs v : c = "#"%char \/ c = "="%char -> Forall good_value vs -> In v vs -> has_char c v = false.
Proof.
  intros Hc H Hv. rewrite Forall_forall in H. destruct (H v Hv) as [Hw He]. destruct Hc as [->| ->].
  - apply word_hash, Hw.
  - apply not_occurs, He.
Qed.

Definition cstr (c : option string) : string := match c with None => "" | Some c => c end.
Definition tail_space (c : option string) : string := match c with None => "" | Some _ => " " end.

Lemma body_rstrip c vs : vs <> [] -> Forall word vs -> good_comment c ->
  rstrip (join " " vs ++ comment_text c) = join " " vs ++ comment_text c /\ join " " vs ++ comment_text c <> "".
Proof.
  intros Hn Hw Hc. destruct (rstrip_join vs Hn Hw) as [J1 J2]. split.
  - destruct c as [c|]; cbn [comment_text].
    + destruct Hc as [Hc1 Hc2]. change (" #" ++ c) with (String " " (String "#" c)).
      assert (E : rstrip (String " " (String "#" c)) = String " " (String "#" c)).
      { cbn [rstrip]. rewrite Hc2. replace (is_ws "#") with false by reflexivity. cbn [andb is_empty].
        rewrite andb_false_r. reflexivity. }
      rewrite rstrip_app; rewrite E; [reflexivity|discriminate].
    + rewrite str_app_nil. exact J1.
  - destruct (join " " vs); [congruence|discriminate].
Qed.

Lemma comment_before c x : has_char "#" x = false -> before_char "#" (x ++ comment_text c) = x ++ tail_space c.
Proof. intros H. rewrite before_char_app by assumption. destruct c; reflexivity. Qed.
Lemma comment_after c x : has_char "#" x = false ->
  (if has_char "#" (x ++ comment_text c) then after_char "#" (x ++ comment_text c) else "") = cstr c.
Proof.
  intros H. rewrite has_char_app, H. destruct c as [c|]; cbn [comment_text orb has_char].
  - replace (has_char "#" (" #" ++ c)) with true by reflexivity. rewrite after_char_app by assumption. reflexivity.
  - reflexivity.
Qed.
Lemma starts_hash_no n x : word n -> is_empty (n ++ x) || starts_with "#" (n ++ x) = false.
Proof.
  intros H. destruct n as [|c n]; [destruct (word_ne _ H eq_refl)|]. cbn [append is_empty orb]. unfold starts_with. cbn [String.prefix].
  destruct (ascii_dec "#" c) as [<-|]; [|reflexivity]. pose proof (word_hash _ H) as Hh. simpl in Hh. discriminate.
Qed.
Lemma starts_hash_join vs x : vs <> [] -> Forall word vs -> is_empty (join " " vs ++ x) || starts_with "#" (join " " vs ++ x) = false.
Proof.
  destruct vs as [|v vs]; [congruence|]. intros _ H. inversion H as [|? ? H1 H2]; subst. destruct vs as [|w vs].
  - apply starts_hash_no, H1.
  - cbn [join]. rewrite str_app_assoc. apply starts_hash_no, H1.
Qed.

Lemma parse_def k st n vs c : good_value n -> vs <> [] -> Forall good_value vs -> good_comment c ->
  parse_line k st (line_text (Def n vs c)) =
  (let! st' := start_definition k n (String " " (join " " vs ++ tail_space c)) st in
   Ok (fold_left (add_value k (cstr c)) vs st')).
Proof.
  intros [Hn Hne] Hv Hvs Hc. pose proof (good_words _ Hvs) as Hw. destruct (body_rstrip c vs Hv Hw Hc) as [B1 B2].
  cbn [line_text]. unfold parse_line.
  assert (S : strip (n ++ " = " ++ join " " vs ++ comment_text c) = n ++ " = " ++ join " " vs ++ comment_text c).
  { unfold strip. rewrite lstrip_word by assumption. rewrite rstrip_app.
    - rewrite rstrip_app; rewrite B1; [reflexivity|assumption].
    - rewrite rstrip_app; rewrite B1; [discriminate|assumption]. }
  rewrite S. rewrite starts_hash_no by assumption.
  replace (n ++ " = " ++ join " " vs ++ comment_text c) with ((n ++ " = " ++ join " " vs) ++ comment_text c)
    by (rewrite !str_app_assoc; reflexivity).
  assert (Hh : has_char "#" (n ++ " = " ++ join " " vs) = false).
  { rewrite !has_char_app. rewrite (word_hash _ Hn), has_char_join; [reflexivity|reflexivity|].
    intros v Hin. apply (good_no _ vs); auto. }
  cbv zeta. rewrite comment_after, comment_before by assumption.
  assert (He : has_char "=" (join " " vs ++ tail_space c) = false).
  { rewrite has_char_app, has_char_join; [destruct c; reflexivity|reflexivity|]. intros v Hin. apply (good_no _ vs); auto. }
  replace ((n ++ " = " ++ join " " vs) ++ tail_space c) with ((n ++ " ") ++ String "=" (String " " (join " " vs ++ tail_space c)))
    by (rewrite !str_app_assoc; reflexivity).
  rewrite split_char_app by (rewrite has_char_app; apply not_occurs in Hne; rewrite Hne; reflexivity).
  rewrite split_char_none by (cbn [has_char]; rewrite He; reflexivity).
  rewrite strip_word_space by (try apply word_no_ws; try apply word_ne; assumption).
  rewrite split_ws_lead. destruct (split_ws_join vs Hv Hw) as [J1 J2].
  replace (split_ws (join " " vs ++ tail_space c)) with vs by (destruct c; cbn [tail_space]; rewrite ?str_app_nil; auto).
  reflexivity.
Qed.

Lemma parse_more k st vs c : vs <> [] -> Forall good_value vs -> good_comment c ->
  parse_line k st (line_text (More vs c)) = Ok (fold_left (add_value k (cstr c)) vs st).
Proof.
  intros Hv Hvs Hc. pose proof (good_words _ Hvs) as Hw. destruct (body_rstrip c vs Hv Hw Hc) as [B1 B2].
  cbn [line_text]. unfold parse_line.
  assert (S : strip (join " " vs ++ comment_text c) = join " " vs ++ comment_text c).
  { unfold strip. rewrite lstrip_join by assumption. exact B1. }
  rewrite S, starts_hash_join by assumption.
  assert (Hh : has_char "#" (join " " vs) = false).
  { apply has_char_join; [reflexivity|]. intros v Hin. apply (good_no _ vs); auto. }
  cbv zeta. rewrite comment_after, comment_before by assumption.
  assert (He : has_char "=" (join " " vs ++ tail_space c) = false).
  { rewrite has_char_app, has_char_join; [destruct c; reflexivity|reflexivity|]. intros v Hin. apply (good_no _ vs); auto. }
  rewrite split_char_none by assumption. destruct (split_ws_join vs Hv Hw) as [J1 J2].
  replace (split_ws (join " " vs ++ tail_space c)) with vs by (destruct c; cbn [tail_space]; rewrite ?str_app_nil; auto).
  reflexivity.
Qed.
Lemma parse_nothing k st s : strip s = "" \/ (exists r, strip s = "#" ++ r) -> parse_line k st s = Ok st.
Proof.
  intros H. unfold parse_line. replace (is_empty (strip s) || starts_with "#" (strip s)) with true; [reflexivity|].
  destruct H as [->|[r ->]]; [reflexivity|]. unfold starts_with. simpl. destruct r; reflexivity.
Qed.

(** port_re *)
Lemma forall_digit_no c s : is_digit c = false -> (forall d, occurs d s -> is_digit d = true) -> has_char c s = false.
Proof. intros Hc H. apply not_occurs. intros Ho. rewrite (H c Ho) in Hc. discriminate. Qed.
Lemma nonempty_ne s : nonempty s = true <-> s <> "".
Proof. unfold nonempty. destruct s; simpl; intuition congruence. Qed.
Lemma digits_spec s : digits s = true <-> all_digits s.
Proof. unfold digits, all_digits. rewrite andb_true_iff, nonempty_ne, forall_char_occurs. reflexivity. Qed.
Lemma service_shape_re v : service_shape v -> port_re v = true.
Proof.
  unfold port_re. intros [H|[p [q [-> [[Hq1 Hq2] Hp]]]]].
  - apply token_re_shape in H. rewrite H. reflexivity.
  - apply orb_true_iff. right.
    assert (Hpn : has_char "/" p = false).
    { destruct Hp as [[_ Hp]|[a [b [-> [[_ Ha] [_ Hb]]]]]]; [apply forall_digit_no; [reflexivity|assumption]|].
      rewrite !has_char_app. rewrite (forall_digit_no "/" a), (forall_digit_no "/" b) by (try reflexivity; assumption). reflexivity. }
    assert (Hqn : has_char "/" q = false).
    { apply not_occurs. intros Ho. destruct (Hq2 _ Ho) as [Hx|[Hx|Hx]]; discriminate. }
    change ("/" ++ q) with (String "/" q). rewrite split_char_app, split_char_none by assumption.
    apply andb_true_iff. split; [apply andb_true_iff; split|].
    + destruct Hp as [Hp|[a [b [-> [Ha Hb]]]]]; [apply digits_spec in Hp; rewrite Hp; reflexivity|].
      apply orb_true_iff. right. change (a ++ "-" ++ b) with (a ++ String "-" b).
      rewrite split_char_app, split_char_none; [|apply forall_digit_no; [reflexivity|apply Hb]|apply forall_digit_no; [reflexivity|apply Ha]].
      apply digits_spec in Ha, Hb. rewrite Ha, Hb. reflexivity.
    + apply nonempty_ne, Hq1.
    + apply forall_char_occurs. intros c Hc. unfold is_word. rewrite !orb_true_iff, Ascii.eqb_eq. destruct (Hq2 c Hc); tauto.
Qed.

(** ** Effect of adding values to the last definition *)
Lemma add_item_last s x t0 items : ~ In s (map fst t0) ->
  add_item s x (t0 ++ [(s, items)])%list = (t0 ++ [(s, items ++ [x])])%list.
Proof.
  induction t0 as [|[k v] t0 IH]; simpl; intros H; [rewrite String.eqb_refl; reflexivity|].
  destruct (String.eqb s k) eqn:E; [apply String.eqb_eq in E; subst; exfalso; apply H; auto|].
  rewrite IH; [reflexivity|]. intros Hin. apply H. auto.
Qed.

Definition ready (k : kind) (st : nstate) (t0 : table) (s : string) (items : list string) : Prop :=
  tab k st = (t0 ++ [(s, items)])%list /\ ~ In s (map fst t0) /\ n_unit st = Some (k, s) /\ n_cur st = s /\ s <> "".

Lemma append_ready k st t0 s items x : ready k st t0 s items ->
  ready k (append_to_unit st x) t0 s (items ++ [x])%list /\ unseen k (append_to_unit st x) = unseen k st.
Proof.
  intros [H1 [H2 [H3 [H4 H5]]]]. split; [|apply unseen_append]. unfold ready, append_to_unit. rewrite H3.
  destruct k; simpl in *; rewrite H1, add_item_last by assumption; repeat split; auto.
Qed.
Lemma note_ready k st t0 s items v : ready k st t0 s items -> ready k (note_unseen k v st) t0 s items.
Proof.
  intros [H1 [H2 [H3 [H4 H5]]]]. destruct (note_unseen_spec k v st) as [HT _].
  destruct (note_unseen_tables k v st) as [_ [_ [HC HU]]]. unfold ready. rewrite HT, HC, HU. auto.
Qed.
Lemma add_value_ready k c st t0 s items v : good_comment c -> ready k st t0 s items ->
  ready k (add_value k (cstr c) st v) t0 s (items ++ [item_text c v])%list /\
  (forall x, In x (unseen k (add_value k (cstr c) st v)) ->
     In x (unseen k st) \/ (c = None /\ x = v /\ looks_like_token v /\ ~ has_definition (tab k st) v)).
Proof.
  intros Hc HR. pose proof HR as [H1 [H2 [H3 [H4 H5]]]]. unfold add_value. rewrite H4.
  replace (is_empty s) with false by (destruct s; [congruence|reflexivity]).
  destruct c as [c|]; cbn [cstr item_text].
  - destruct Hc as [Hc1 _]. replace (nonempty c) with true by (destruct c; [congruence|reflexivity]).
    destruct (append_ready k st t0 s items (v ++ " # " ++ c) HR) as [A1 A2]. split; [exact A1|]. rewrite A2. auto.
  - cbn [nonempty is_empty negb]. destruct (append_ready k st t0 s items v HR) as [A1 A2].
    destruct (token_like v) eqn:Et.
    + split; [apply note_ready, A1|]. intros x Hx. apply (note_unseen_spec k v (append_to_unit st v)) in Hx.
      rewrite A2 in Hx. destruct Hx as [Hx|[-> Hx]]; [auto|]. right. split; [reflexivity|]. split; [reflexivity|].
      split; [apply token_like_spec, Et|]. unfold has_definition in *. rewrite tab_append_keys in Hx. exact Hx.
    + split; [exact A1|]. rewrite A2. auto.
Qed.
Lemma add_values_ready k c t0 s vs : good_comment c -> forall st items, ready k st t0 s items ->
  ready k (fold_left (add_value k (cstr c)) vs st) t0 s (items ++ map (item_text c) vs)%list /\
  (forall x, In x (unseen k (fold_left (add_value k (cstr c)) vs st)) ->
     In x (unseen k st) \/ (c = None /\ In x vs /\ looks_like_token x /\ ~ has_definition (tab k st) x)).
Proof.
  intros Hc. induction vs as [|v vs IH]; intros st items HR; simpl.
  - rewrite app_nil_r. auto.
  - destruct (add_value_ready k c st t0 s items v Hc HR) as [A1 A2]. destruct (IH _ _ A1) as [B1 B2].
    rewrite <- app_assoc in B1. split; [exact B1|]. intros x Hx. destruct (B2 x Hx) as [H|[H1 [H2 [H3 H4]]]].
    + destruct (A2 x H) as [H'|[-> [-> [H2 H3]]]]; [auto|]. right. auto.
    + right. split; [assumption|]. split; [right; assumption|]. split; [assumption|]. destruct HR as [R1 _], A1 as [A1 _]. rewrite R1. rewrite A1 in H4.
      unfold has_definition in *. rewrite map_app in *. exact H4.
Qed.

Lemma extend_last_app t0 s items new : extend_last (t0 ++ [(s, items)])%list new = (t0 ++ [(s, items ++ new)])%list.
Proof. unfold extend_last. rewrite rev_app_distr. simpl. rewrite rev_involutive. reflexivity. Qed.

(** The values on a definition line of a services file satisfy the syntax check. *)
Lemma start_ok k st n vs c : vs <> [] -> Forall good_value vs -> (k = Services -> Forall service_shape vs) ->
  ~ has_definition (tab k st) n -> n <> "" ->
  exists st', start_definition k n (String " " (join " " vs ++ tail_space c)) st = Ok st'.
Proof.
  intros Hv Hg Hs Hd Hn. assert (E : defined n (tab k st) = false).
  { destruct (defined n (tab k st)) eqn:E; [|reflexivity]. apply defined_has in E. contradiction. }
  destruct k; cbn [start_definition]; simpl in E; rewrite E; [|eauto].
  assert (P : forallb port_re (split_ws (strip (String " " (join " " vs ++ tail_space c)))) = true).
  { pose proof (good_words _ Hg) as Hw. destruct (rstrip_join vs Hv Hw) as [R1 R2].
    replace (strip (String " " (join " " vs ++ tail_space c))) with (join " " vs).
    - destruct (split_ws_join vs Hv Hw) as [-> _]. apply forallb_forall. intros x Hx. apply service_shape_re.
      specialize (Hs eq_refl). rewrite Forall_forall in Hs. apply Hs, Hx.
    - unfold strip. cbn [lstrip]. replace (is_ws " ") with true by reflexivity. cbv iota.
      rewrite lstrip_join by assumption. destruct c; cbn [tail_space]; rewrite ?rstrip_app_space, ?str_app_nil; symmetry; exact R1. }
  rewrite P. cbn [negb]. eauto.
Qed.

Definition is_services (k : kind) : bool := match k with Services => true | Networks => false end.

(** The state after a whole document. *)
Lemma parse_doc k doc : forall st,
  Forall (good_line (is_services k)) doc -> NoDup (map fst (tab k st) ++ doc_names doc) ->
  ((exists t0 s items, ready k st t0 s items) \/ starts_with_def doc) ->
  exists st', parse_lines k st (map line_text doc) = Ok st' /\ tab k st' = meaning (tab k st) doc /\
    map fst (tab k st') = (map fst (tab k st) ++ doc_names doc)%list /\
    (forall x, In x (unseen k st') ->
       ~ In x (doc_names doc) /\
       (In x (unseen k st) \/
        (exists l, In l doc /\ In x (line_uses l)) /\ looks_like_token x /\ ~ has_definition (tab k st) x)).
Proof.
  induction doc as [|l doc IH]; intros st HG HN HS; cbn [map parse_lines meaning doc_names].
  - exists st. rewrite app_nil_r. split; [reflexivity|]. split; [reflexivity|]. split; [reflexivity|]. intros x Hx. split; [intros []|auto].
  - inversion HG as [|? ? HL HG']; subst. destruct l as [n vs c|vs c|s].
    + destruct HL as [Hn [Hv [Hvs [Hc Hshape]]]]. rewrite parse_def by assumption.
      cbn [doc_names] in HN. pose proof (NoDup_remove_2 _ _ _ HN) as HN2. rewrite in_app_iff in HN2.
      destruct (start_ok k st n vs c Hv Hvs) as [st1 H1].
      * intros ->. apply Hshape. reflexivity.
      * unfold has_definition. tauto.
      * apply word_ne, Hn.
      * rewrite H1. cbn [bind]. destruct (start_definition_eff _ _ _ _ _ H1) as [E1 [E2 [E3 [E4 [E5 _]]]]].
        assert (R1 : ready k st1 (tab k st) n []).
        { split; [assumption|]. split; [tauto|]. split; [assumption|]. split; [assumption|apply word_ne, Hn]. }
        destruct (add_values_ready k c (tab k st) n vs Hc st1 [] R1) as [R2 U2]. cbn [app] in R2.
        set (st2 := fold_left (add_value k (cstr c)) vs st1) in *.
        assert (K2 : map fst (tab k st2) = (map fst (tab k st) ++ [n])%list)
          by (destruct R2 as [-> _]; rewrite map_app; reflexivity).
        destruct (IH st2 HG') as [st' [P1 [P2 [P3 P4]]]].
        -- rewrite K2, <- app_assoc. exact HN.
        -- left. eauto.
        -- exists st'. split; [exact P1|]. split; [rewrite P2; destruct R2 as [-> _]; reflexivity|].
           split; [rewrite P3, K2, <- app_assoc; reflexivity|]. intros x Hx.
           destruct (P4 x Hx) as [Q1 [Q2|[[l [Q2 Q3]] [Q4 Q5]]]].
           ++ destruct (U2 x Q2) as [Q3|[Q3 [Q4 [Q5 Q6]]]].
              ** rewrite E2 in Q3. apply remove_str_in in Q3. destruct Q3 as [Q3 Q4]. split; [|auto].
                 intros [<-|Hin]; contradiction.
              ** assert (Hxn : n <> x). { intros <-. apply Q6. rewrite E1. unfold has_definition. rewrite map_app. apply in_or_app. right. left. reflexivity. }
                 split; [intros [Hin|Hin]; contradiction|]. right. split; [|split; [assumption|]].
                 --- exists (Def n vs c). subst c. split; [left; reflexivity|assumption].
                 --- intros Hd. apply Q6. rewrite E1. unfold has_definition in *. rewrite map_app. apply in_or_app. left. exact Hd.
           ++ assert (Hd' : ~ has_definition (tab k st) x /\ n <> x).
              { unfold has_definition in *. rewrite K2 in Q5. rewrite in_app_iff in Q5. simpl in Q5. tauto. }
              destruct Hd' as [Hd' Hxn]. split; [intros [Hin|Hin]; contradiction|]. right.
              split; [exists l; split; [right|]; assumption|]. auto.
    + destruct HL as [Hv [Hvs Hc]]. destruct HS as [[t0 [s [items R]]]|[]].
      rewrite parse_more by assumption. cbn [bind].
      destruct (add_values_ready k c t0 s vs Hc st items R) as [R2 U2].
      set (st2 := fold_left (add_value k (cstr c)) vs st) in *.
      assert (K2 : map fst (tab k st2) = map fst (tab k st))
        by (destruct R2 as [-> _]; destruct R as [-> _]; rewrite !map_app; reflexivity).
      destruct (IH st2 HG') as [st' [P1 [P2 [P3 P4]]]]; [rewrite K2; exact HN|left; eauto|].
      exists st'. split; [exact P1|]. split.
      { rewrite P2. destruct R2 as [-> _]. destruct R as [-> _]. rewrite extend_last_app. reflexivity. }
      split; [rewrite P3, K2; reflexivity|]. intros x Hx. destruct (P4 x Hx) as [Q1 [Q2|[[l [Q2 Q3]] [Q4 Q5]]]]; (split; [assumption|]).
      * destruct (U2 x Q2) as [Q3|[-> [Q4 [Q5 Q6]]]]; [auto|]. right. split; [|auto]. exists (More vs None). split; [left; reflexivity|assumption].
      * right. split; [exists l; split; [right|]; assumption|]. split; [assumption|]. unfold has_definition in *. rewrite K2 in Q5. exact Q5.
    + cbn [line_text]. rewrite parse_nothing by exact HL. cbn [bind]. destruct (IH st HG' HN) as [st' [P1 [P2 [P3 P4]]]].
      { destruct HS as [HS|HS]; [left|right]; assumption. }
      exists st'. split; [exact P1|]. split; [exact P2|]. split; [exact P3|]. intros x Hx.
      destruct (P4 x Hx) as [Q1 [Q2|[[l [Q2 Q3]] Q4]]]; (split; [assumption|]); [auto|right]. split; [exists l; split; [right|]; assumption|assumption].
Qed.

Lemma doc_all_seen k doc st' : good_doc (is_services k) doc ->
  parse_lines k st' [] = Ok st' -> (forall x, In x (unseen k st') ->
       ~ In x (doc_names doc) /\ ((exists l, In l doc /\ In x (line_uses l)) /\ looks_like_token x)) ->
  unseen k st' = [].
Proof.
  intros [_ [_ [_ HU]]] _ H. destruct (unseen k st') as [|x r]; [reflexivity|].
  destruct (H x (or_introl eq_refl)) as [H1 [[l [H2 H3]] H4]]. exfalso. apply H1. apply (HU l x H2 H3 H4).
Qed.

Lemma file_starts_doc sv doc : Forall (good_line sv) doc -> starts_with_def doc -> file_starts_with_def (map line_text doc).
Proof.
  induction doc as [|l doc IH]; intros HG HS; [exact I|]. inversion HG as [|? ? HL HG']; subst.
  cbn [map file_starts_with_def]. destruct l as [n vs c|vs c|s]; [|destruct HS|].
  - destruct HL as [[Hn Hne] [Hv [Hvs [Hc _]]]]. pose proof (good_words _ Hvs) as Hw. destruct (body_rstrip c vs Hv Hw Hc) as [B1 B2].
    cbn [line_text]. assert (S : strip (n ++ " = " ++ join " " vs ++ comment_text c) = n ++ " = " ++ join " " vs ++ comment_text c).
    { unfold strip. rewrite lstrip_word by assumption. rewrite rstrip_app.
      - rewrite rstrip_app; rewrite B1; [reflexivity|assumption].
      - rewrite rstrip_app; rewrite B1; [discriminate|assumption]. }
    rewrite S, starts_hash_no by assumption. apply occurs_has. rewrite before_char_app by (apply word_hash, Hn).
    rewrite has_char_app. change (has_char "=" (before_char "#" (" = " ++ join " " vs ++ comment_text c))) with true. apply orb_true_r.
  - cbn [line_text]. replace (is_empty (strip s) || starts_with "#" (strip s)) with true; [apply IH; assumption|].
    destruct HL as [->|[r ->]]; [reflexivity|]. unfold starts_with. simpl. destruct r; reflexivity.
Qed.

Theorem load_doc svc net : good_doc true svc -> good_doc false net ->
  exists st, load (map line_text svc) (map line_text net) = Ok st /\
    n_services st = meaning [] svc /\ n_networks st = meaning [] net.
Proof.
  intros Gs Gn. pose proof Gs as [S1 [S2 [S3 S4]]]. pose proof Gn as [N1 [N2 [N3 N4]]].
  destruct (parse_doc Services svc n_init S1 S2 (or_intror S3)) as [st1 [P1 [P2 [_ P4]]]].
  assert (U1 : n_unseen_services st1 = []).
  { apply (doc_all_seen Services svc st1 Gs eq_refl). intros x Hx. destruct (P4 x Hx) as [Q1 [[]|[Q2 [Q3 _]]]]. auto. }
  destruct (services_phase _ _ P1) as [T0 V0].
  destruct (parse_doc Networks net st1 N1) as [st2 [R1 [R2 [_ R4]]]].
  { simpl. rewrite T0. exact N2. }
  { right. exact N3. }
  simpl in R2. rewrite T0 in R2.
  assert (U2 : n_unseen_networks st2 = []).
  { apply (doc_all_seen Networks net st2 Gn eq_refl). intros x Hx. destruct (R4 x Hx) as [Q1 [Q|[Q2 [Q3 _]]]]; [|auto].
    simpl in Q. rewrite V0 in Q. destruct Q. }
  exists st2. split; [|split].
  - unfold load. rewrite P1. cbn [bind]. rewrite U1, R1. cbn [bind]. rewrite U2. reflexivity.
  - assert (Hk : Services <> Networks) by discriminate.
    destruct (parse_lines_other_start Networks Services _ Hk (file_starts_doc _ _ N1 N3) _ _ R1) as [E _]. simpl in E. rewrite E. exact P2.
  - exact R2.
Qed.
