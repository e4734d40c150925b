(** Aruba policies decide as their terms do. *)
From Coq Require Import Lia ZifyBool ZifyNat.
From Verif Require Import SpecAruba BaseFacts IPFacts PyStrFacts TextProofs WrapProofs CiscoProofs CiscoProofs2 CiscoTerm CiscoAcl CiscoDup CiscoGroupRead CiscoGroupTerm CiscoGroupAcl QuietTerm ArubaProofs.
Local Open Scope string_scope.
Local Open Scope list_scope.
Local Open Scope Z_scope.

(** ** Ends *)
Definition end_words (e : aend) : list string := match e with EAny => ["any"] | EUser => ["user"] | EAlias n => ["alias"; n] end.
Definition end_of (user suffix : string) (t : term) (addrs : list net) : aend :=
  if str_in user (t_option t) then EUser else match addrs with [] => EAny | _ => EAlias (lower (t_name t) ++ suffix)%string end.
Definition end_items (v : ver) (user suffix : string) (t : term) (addrs : list net) : list aitem :=
  if str_in user (t_option t) then []
  else match addrs with [] => [] | _ => [ADest v (lower (t_name t) ++ suffix)%string (map member_words (address_of_version addrs (Some v)))] end.
Definition end_shown (v : ver) (user : string) (t : term) (addrs : list net) : Prop :=
  In user (t_option t) \/ addrs = [] \/ address_of_version addrs (Some v) <> [].
Definition dest_text (v : ver) (suffix : string) (t : term) (addrs : list net) : string :=
  ar_netdest v (lower (t_name t) ++ suffix)%string (address_of_version addrs (Some v)).
Lemma ar_end_cases v user suffix t addrs : one_word (t_name t) -> no_ws suffix ->
  match ar_end v user suffix t addrs with
  | None => ~ In user (t_option t) /\ addrs <> [] /\ address_of_version addrs (Some v) = []
  | Some (w, ns) => end_shown v user t addrs /\ split_ws w = end_words (end_of user suffix t addrs) /\ has_char newline w = false /\ is_empty w = false /\
      ns = (if str_in user (t_option t) then [] else match addrs with [] => [] | _ => [dest_text v suffix t addrs] end)
  end.
Proof.
  intros W S. unfold ar_end, end_of, end_shown, dest_text. destruct (str_in user (t_option t)) eqn:U.
  - apply str_in_spec in U. split; [left; exact U|]. repeat split.
  - destruct addrs as [|a l]; [split; [right; left; reflexivity|]; repeat split|].
    pose proof (id_word (t_name t) suffix W S) as Wi. pose proof (word_line _ Wi) as Ni.
    destruct (address_of_version (a :: l) (Some v)) as [|b m] eqn:E.
    + split; [intros X; apply str_in_spec in X; congruence|]. split; [discriminate|reflexivity].
    + split; [right; right; discriminate|].
      change ("alias " ++ lower (t_name t) ++ suffix)%string with ("alias" ++ " " ++ (lower (t_name t) ++ suffix))%string.
      split; [rewrite split_ws_space, Wi; reflexivity|]. split; [rewrite !has_char_app in *; rewrite Ni; reflexivity|]. split; reflexivity.
Qed.

(** ** Rules *)
Definition family_words (v : ver) : list string := match v with V6 => ["ipv6"] | V4 => [] end.
Definition rule_words (v : ver) (s d : aend) (service : list string) (action : string) : list string :=
  family_words v ++ end_words s ++ end_words d ++ service ++ [action].
Lemma read_end_words e r : read_end (end_words e ++ r) = Some (e, r).
Proof. destruct e; reflexivity. Qed.
Lemma rule_words_say items v p s d service action o :
  ar_rule_says items v p (rule_words v s d service action) o <->
  o = action /\ In action ["permit"; "deny"] /\ end_says items v s (snd (p_src p)) (p_option p "source-is-user") /\
  end_says items v d (snd (p_dst p)) (p_option p "destination-is-user") /\ service_says service p.
Proof.
  unfold ar_rule_says, rule_words. replace (family_part v (family_words v ++ end_words s ++ end_words d ++ service ++ [action])) with (end_words s ++ end_words d ++ service ++ [action]) by (destruct v; [|reflexivity]; destruct s; reflexivity).
  rewrite read_end_words, read_end_words. split.
  - intros (sv & E & H). apply app_inj_tail in E. destruct E as (<- & <-). tauto.
  - intros (-> & H). exists service. tauto.
Qed.
Lemma rule_words_kind v s d service action : idle (rule_words v s d service action) = false /\ section_end (rule_words v s d service action) = false.
Proof. unfold rule_words. destruct v, s, d; cbn [family_words end_words app idle section_end]; split; try reflexivity; destruct service; reflexivity. Qed.

(** ** The lines of a term *)
Definition rules_of (lines : list string) : list (list string) := filter (fun ws => negb (idle ws)) (map split_ws lines).
Lemma rules_of_app a b : rules_of (a ++ b) = rules_of a ++ rules_of b.
Proof. unfold rules_of. rewrite map_app, filter_app. reflexivity. Qed.
Lemma rules_nonempty l : (forall x, In x l -> has_char newline x = false) -> rules_of (lns [nonempty_lines l]) = rules_of l.
Proof.
  intros H. unfold nonempty_lines. set (k := filter (fun s => negb (is_empty s)) l).
  assert (E : rules_of k = rules_of l).
  { unfold k. clear. induction l as [|x l IH]; [reflexivity|]. cbn [filter]. destruct (is_empty x) eqn:Q; cbn [negb].
    - apply is_empty_true in Q. subst x. exact IH.
    - change (x :: filter (fun s => negb (is_empty s)) l) with ([x] ++ filter (fun s => negb (is_empty s)) l). change (x :: l) with ([x] ++ l). rewrite !rules_of_app, IH. reflexivity. }
  rewrite <- E. destruct k as [|y k'] eqn:Ek; [reflexivity|]. rewrite <- Ek.
  assert (X : lns [join lf k] = k).
  { unfold lns. cbn [flat_map]. rewrite app_nil_r, split_join_lns by (rewrite Ek; discriminate). apply lns_plain. intros x I. apply H. unfold k in I. apply filter_In in I. apply I. }
  rewrite X. reflexivity.
Qed.
Definition term_rules (v : ver) (t : term) (sv : list string) (a : string) : list (list string) :=
  map (fun s => rule_words v (end_of "source-is-user" "_src" t (t_source_address t)) (end_of "destination-is-user" "_dst" t (t_destination_address t)) (split_ws s) a) sv.
Definition both_shown (v : ver) (t : term) : Prop :=
  end_shown v "source-is-user" t (t_source_address t) /\ end_shown v "destination-is-user" t (t_destination_address t).
Definition term_items (v : ver) (t : term) : list aitem :=
  end_items v "source-is-user" "_src" t (t_source_address t) ++ end_items v "destination-is-user" "_dst" t (t_destination_address t).
Definition no_options (t : term) : Prop := str_in "negate" (t_option t) = false.
Lemma note_lines l : (forall x, In x (map (fun line => ("  # " ++ line)%string) (wrap_words l 70 lf)) -> has_char newline x = false) /\
  rules_of (map (fun line => ("  # " ++ line)%string) (wrap_words l 70 lf)) = [].
Proof.
  assert (A : forall x, In x (wrap_words l 70 lf) -> has_char newline x = false) by (intros x I; exact (comment_line l x I)).
  split.
  - intros x I. apply in_map_iff in I. destruct I as (y & <- & I). rewrite has_char_app, (A y I). reflexivity.
  - induction (wrap_words l 70 lf) as [|x m IH]; [reflexivity|]. cbn [map].
    change ((("  # " ++ x)%string :: map (fun line => ("  # " ++ line)%string) m)) with ([("  # " ++ x)%string] ++ map (fun line => ("  # " ++ line)%string) m).
    rewrite rules_of_app, IH by (intros y I; apply A; right; exact I). rewrite app_nil_r. unfold rules_of. cbn [map filter].
    change ("  # " ++ x)%string with (String " " (String " " ("#" ++ " " ++ x))). rewrite !split_ws_lead, split_ws_space. reflexivity.
Qed.
(** What a term becomes: nothing for the family, or netdestinations and rules. *)
Lemma ar_term_shape v verbose t ps r : ar_term_ok t -> ar_term v verbose t ps = Ok r ->
  (~ both_shown v t /\ r = ([], "")) \/
  (both_shown v t /\ exists sv a rest w, services t ps = Ok sv /\ t_action t = a :: rest /\ assoc a ar_actions = Some w /\
     fst r = flat_map (fun x => match x with ADest _ n ms => if String.eqb n (lower (t_name t) ++ "_src") then [dest_text v "_src" t (t_source_address t)] else [dest_text v "_dst" t (t_destination_address t)] | AList _ _ => [] end) (term_items v t) /\
     ((forall s, In s sv -> has_char newline s = false /\ is_empty s = false) -> rules_of (lns [snd r]) = term_rules v t sv w)).
Proof.
  intros K H. unfold ar_term in H. destruct (at_only t K) as (_ & _ & _ & _ & _ & _ & _ & _ & _ & _ & _ & _ & _ & _ & _ & _ & _ & _ & _ & _ & _ & _ & _ & _ & Ev).
  rewrite Ev in H. cbn [some] in H. pose proof (ar_end_cases v "source-is-user" "_src" t (t_source_address t) (at_name t K) eq_refl) as S.
  destruct (ar_end v "source-is-user" "_src" t (t_source_address t)) as [(s & ns)|].
  2:{ left. apply ok_inj in H. subst r. split; [|reflexivity]. intros ([X|[X|X]] & _); tauto. }
  pose proof (ar_end_cases v "destination-is-user" "_dst" t (t_destination_address t) (at_name t K) eq_refl) as D.
  destruct (ar_end v "destination-is-user" "_dst" t (t_destination_address t)) as [(d & nd)|].
  2:{ left. apply ok_inj in H. subst r. split; [|reflexivity]. intros (_ & [X|[X|X]]); tauto. }
  destruct S as (Sh & Sw & Sn & Se & ->). destruct D as (Dh & Dw & Dn & De & ->). right. split; [split; assumption|].
  apply bind_ok in H. destruct H as (sv & Es & H). apply bind_ok in H. destruct H as (lines & El & H). apply ok_inj in H. subst r.
  destruct (at_action t K) as (a & rest & Ea & Ia). rewrite Ea in El.
  assert (exists w, assoc a ar_actions = Some w /\ one_word w) as (w & Ew & Ww) by (destruct Ia as [<-|[<-|[]]]; eexists; split; reflexivity).
  rewrite Ew in El. exists sv, a, rest, w. split; [exact Es|]. split; [exact Ea|]. split; [exact Ew|]. cbn [fst snd]. split.
  - unfold term_items, end_items.
    assert (Q : String.eqb (lower (t_name t) ++ "_dst") (lower (t_name t) ++ "_src") = false).
    { apply String.eqb_neq. intros X. apply suffix_inj in X; [|reflexivity]. destruct X as (_ & X). discriminate X. }
    destruct (str_in "source-is-user" (t_option t)), (str_in "destination-is-user" (t_option t)), (t_source_address t), (t_destination_address t);
      cbn [flat_map app]; rewrite ?String.eqb_refl, ?Q; reflexivity.
  - intros Hs.
    assert (Neg : str_in "negate" (t_option t) = false).
    { destruct (str_in "negate" (t_option t)) eqn:X; [|reflexivity]. apply str_in_spec in X. destruct (at_option t K _ X) as [(Y & _)|(Y & _)]; discriminate Y. }
    rewrite Neg in El.
    assert (L : Forall2 (fun x y => split_ws y = rule_words v (end_of "source-is-user" "_src" t (t_source_address t)) (end_of "destination-is-user" "_dst" t (t_destination_address t)) (split_ws x) w /\ has_char newline y = false) sv lines).
    { apply mapM_forall2 in El. clear Es. revert Hs. induction El as [|x y xs ys E El IH]; intros Hs; constructor; [|apply IH; intros z I; apply Hs; right; exact I].
      apply ok_inj in E. subst y. destruct (Hs x (or_introl eq_refl)) as (Nx & Ex). split.
      - rewrite split_ws_join, split_ws_filter. unfold rule_words. cbn [map concat]. rewrite Sw, Dw, Ww. rewrite app_nil_r.
        change (split_ws " ") with (@nil string). change (split_ws "") with (@nil string). cbn [app]. destruct v; reflexivity.
      - assert (Nw : has_char newline w = false) by (apply word_line, Ww).
        assert (J : forall l, (forall z, In z l -> has_char newline z = false) -> has_char newline (join " " l) = false).
        { intros l. induction l as [|z [|z' l] IHl]; intros Hl; [reflexivity|apply (Hl z); left; reflexivity|]. rewrite join_cons2, !has_char_app, (Hl z (or_introl eq_refl)), IHl; [reflexivity|intros q I; apply Hl; right; exact I]. }
        apply J. intros z I. apply filter_In in I. destruct I as (I & _). cbn [In] in I. destruct I as [<-|[<-|[<-|[<-|[<-|[<-|[<-|[]]]]]]]]; try reflexivity; try assumption. destruct v; reflexivity. }
    set (com := t_comment t ++ _) in *. destruct (note_lines com) as (N1 & N2).
    assert (PL : forall x, In x lines -> has_char newline x = false) by (clear - L; induction L as [|? ? ? ? (_ & X) _ IH]; intros z I; [destruct I|destruct I as [<-|I]; auto]).
    assert (RL : rules_of lines = term_rules v t sv w).
    { clear - L. unfold rules_of, term_rules. induction L as [|x y xs ys (E & _) _ IH]; [reflexivity|]. cbn [map filter]. rewrite E, (proj1 (rule_words_kind _ _ _ _ _)). cbn [negb]. f_equal. exact IH. }
    rewrite rules_nonempty.
    + destruct verbose; [rewrite rules_of_app, N2; exact RL|exact RL].
    + intros x I. apply in_app_or in I. destruct I as [I|I]; [|apply PL, I]. destruct verbose; [apply N1, I|destruct I].
Qed.
