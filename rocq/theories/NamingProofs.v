(** Lookups over definition tables. *)
From Coq Require Import Lia Sorted Relations Permutation.
From Verif Require Import BaseFacts PyStrFacts SpecNaming.
Local Open Scope string_scope.

(** ** Items *)
Lemma occurs_has c s : occurs c s <-> has_char c s = true.
Proof.
  unfold occurs. induction s as [|d s IH]; simpl; [intuition discriminate|].
  rewrite orb_true_iff, Ascii.eqb_eq, IH. reflexivity.
Qed.
Lemma not_occurs c s : ~ occurs c s <-> has_char c s = false.
Proof. rewrite occurs_has. destruct (has_char c s); intuition congruence. Qed.
Lemma forall_char_occurs f s : forall_char f s = true <-> forall c, occurs c s -> f c = true.
Proof.
  unfold occurs. induction s as [|d s IH]; simpl; [intuition|]. rewrite andb_true_iff, IH. split.
  - intros [H1 H2] c [<-|H]; auto.
  - intros H. split; [apply H|intros c Hc; apply H]; auto.
Qed.
Lemma word_no_ws v : word v -> no_ws v.
Proof.
  intros [_ [H _]]. apply forall_char_occurs. intros c Hc. rewrite (H c Hc). reflexivity.
Qed.
Lemma word_intro v : v <> "" -> no_ws v -> has_char "#" v = false -> word v.
Proof.
  intros H1 H2 H3. split; [assumption|]. split.
  - intros c Hc. unfold no_ws in H2. rewrite forall_char_occurs in H2. specialize (H2 c Hc).
    destruct (is_ws c); [discriminate|reflexivity].
  - apply not_occurs, H3.
Qed.
Lemma word_hash v : word v -> has_char "#" v = false.
Proof. intros [_ [_ H]]. apply not_occurs, H. Qed.
Lemma word_ne v : word v -> v <> "".
Proof. intros [H _]. exact H. Qed.

Lemma item_value_says i v c : item_says i v c -> item_value i = v.
Proof.
  intros H. destruct H as [v Hw|v c Hw]; unfold item_value.
  - rewrite before_char_none by (apply word_hash, Hw). apply strip_no_ws, word_no_ws, Hw.
  - rewrite before_char_app by (apply word_hash, Hw). cbn [append before_char Ascii.eqb].
    change (Ascii.eqb " " "#") with false. change (Ascii.eqb "#" "#") with true. cbv iota.
    apply strip_word_space; [apply word_no_ws, Hw|apply word_ne, Hw].
Qed.
Lemma item_comment_says i v c : item_says i v c -> item_comment i = c.
Proof.
  intros H. destruct H as [v Hw|v c Hw]; unfold item_comment.
  - rewrite (word_hash v Hw). reflexivity.
  - rewrite has_char_app. replace (has_char "#" (" # " ++ c)) with true by reflexivity.
    rewrite orb_true_r. rewrite after_char_app by (apply word_hash, Hw). reflexivity.
Qed.
Lemma item_says_word i v c : item_says i v c -> word v.
Proof. intros H. destruct H; assumption. Qed.
Lemma entry_word t T v c : entry_value t T v c -> word v.
Proof. intros [items [i [_ [_ H]]]]. eapply item_says_word, H. Qed.

Lemma query_token_word v : word v -> query_token v = Ok v.
Proof.
  intros H. unfold query_token. rewrite before_char_none by (apply word_hash, H).
  rewrite split_ws_word; [reflexivity|apply word_no_ws, H|apply word_ne, H].
Qed.
Lemma query_token_is_word q T : query_token q = Ok T -> word T.
Proof.
  unfold query_token. destruct (split_ws (before_char "#" q)) as [|w l] eqn:E; [discriminate|].
  intros [= <-]. assert (Hin : In w (split_ws (before_char "#" q))) by (rewrite E; left; reflexivity).
  destruct (split_ws_words _ _ Hin) as [H1 [H2 H3]]. apply word_intro; try assumption.
  destruct (has_char "#" w) eqn:Eh; [|reflexivity]. apply H3 in Eh. rewrite before_char_has in Eh. discriminate.
Qed.

Lemma token_re_shape v : token_re v = true <-> token_shape v.
Proof.
  unfold token_re, token_shape, nonempty. rewrite andb_true_iff, forall_char_occurs.
  assert (Hn : negb (is_empty v) = true <-> v <> "") by (destruct v; simpl; intuition congruence).
  rewrite Hn. split; intros [H1 H2]; (split; [assumption|]); intros c Hc; specialize (H2 c Hc).
  - unfold word_or_dash, is_word in H2. rewrite !orb_true_iff, !Ascii.eqb_eq in H2. tauto.
  - unfold word_or_dash, is_word. rewrite !orb_true_iff, !Ascii.eqb_eq. tauto.
Qed.

(** ** Tables *)
Lemma lookup_in T t items : lookup T t = Some items -> In (T, items) t.
Proof.
  induction t as [|[k v] t IH]; simpl; [discriminate|]. destruct (String.eqb T k) eqn:E.
  - intros [= <-]. apply String.eqb_eq in E. subst. left. reflexivity.
  - intros H. right. apply IH, H.
Qed.
Lemma lookup_none T t : lookup T t = None <-> ~ has_definition t T.
Proof.
  unfold has_definition. induction t as [|[k v] t IH]; simpl; [intuition|].
  destruct (String.eqb T k) eqn:E.
  - apply String.eqb_eq in E. subst. intuition discriminate.
  - apply String.eqb_neq in E. rewrite IH. intuition.
Qed.
Lemma in_lookup T t items : NoDup (map fst t) -> In (T, items) t -> lookup T t = Some items.
Proof.
  induction t as [|[k v] t IH]; simpl; [intros _ []|]. intros N H. inversion N as [|? ? N1 N2]; subst.
  destruct H as [[= -> ->]|H]; [rewrite String.eqb_refl; reflexivity|].
  destruct (String.eqb T k) eqn:E; [|apply IH; assumption]. apply String.eqb_eq in E. subst.
  exfalso. apply N1. apply in_map with (f := fst) in H. exact H.
Qed.
Lemma defined_has T t : defined T t = true <-> has_definition t T.
Proof.
  unfold defined. pose proof (lookup_none T t) as H. destruct (lookup T t).
  - split; [intros _|reflexivity]. destruct (in_dec string_dec T (map fst t)) as [i|n]; [exact i|].
    apply H in n. discriminate.
  - split; [discriminate|]. intros Hd. exfalso. apply (proj1 H eq_refl Hd).
Qed.

(** In a well-formed table the items of a name give its values. *)
Lemma wf_items t T items i : well_formed t -> lookup T t = Some items -> In i items ->
  exists c, item_says i (item_value i) c /\ entry_value t T (item_value i) c /\ c = item_comment i.
Proof.
  intros [N W] HL Hi. pose proof (lookup_in _ _ _ HL) as Hin. destruct (W _ _ _ Hin Hi) as [v [c Hs]].
  rewrite (item_value_says _ _ _ Hs), (item_comment_says _ _ _ Hs). exists c.
  split; [assumption|]. split; [|reflexivity]. exists items, i. auto.
Qed.
Lemma wf_entry t T v c : well_formed t -> entry_value t T v c ->
  exists items i, lookup T t = Some items /\ In i items /\ item_value i = v /\ item_comment i = c.
Proof.
  intros [N W] [items [i [H1 [H2 H3]]]]. exists items, i. split; [apply in_lookup; assumption|].
  split; [assumption|]. split; [apply (item_value_says _ _ _ H3)|apply (item_comment_says _ _ _ H3)].
Qed.

(** ** mapM *)
Lemma mapM_ok_all {A B} (f : A -> res B) l ys : mapM f l = Ok ys ->
  Forall2 (fun x y => f x = Ok y) l ys.
Proof.
  revert ys. induction l as [|x l IH]; intros ys H; cbn [mapM] in H.
  - injection H as <-. constructor.
  - apply bind_ok in H. destruct H as [y [H1 H2]]. apply bind_ok in H2. destruct H2 as [ys' [H2 H3]].
    injection H3 as <-. constructor; [assumption|apply IH, H2].
Qed.
Lemma mapM_raise {A B} (f : A -> res B) l e : mapM f l = Raise e -> exists x, In x l /\ f x = Raise e.
Proof.
  induction l as [|x l IH]; cbn [mapM]; [discriminate|]. destruct (f x) as [y|e'] eqn:E; cbn [bind].
  - destruct (mapM f l) as [ys|e'] eqn:E2; cbn [bind]; [discriminate|]. intros [= ->].
    destruct (IH eq_refl) as [z [H1 H2]]. exists z. split; [right|]; assumption.
  - intros [= ->]. exists x. split; [left; reflexivity|assumption].
Qed.
Lemma Forall2_in_l {A B} (R : A -> B -> Prop) l1 l2 x : Forall2 R l1 l2 -> In x l1 ->
  exists y, In y l2 /\ R x y.
Proof.
  intros H. induction H as [|a b l1 l2 Hab H IH]; [intros []|]. intros [<-|Hx].
  - exists b. split; [left; reflexivity|assumption].
  - destruct (IH Hx) as [y [H1 H2]]. exists y. split; [right|]; assumption.
Qed.
Lemma Forall2_in_r {A B} (R : A -> B -> Prop) l1 l2 y : Forall2 R l1 l2 -> In y l2 ->
  exists x, In x l1 /\ R x y.
Proof.
  intros H. induction H as [|a b l1 l2 Hab H IH]; [intros []|]. intros [<-|Hx].
  - exists a. split; [left; reflexivity|assumption].
  - destruct (IH Hx) as [x [H1 H2]]. exists x. split; [right|]; assumption.
Qed.

(** ** Chains of references *)
Section Chains.
  Context (R : string -> string -> Prop).
  (** [chain T l]: l = T :: T1 :: ... with each element referring to the next. *)
  Fixpoint chain (T : string) (l : list string) : Prop :=
    match l with
    | [] => True
    | U :: l' => R T U /\ chain U l'
    end.
  Lemma chain_reach l : forall T U, chain T l -> In U l -> clos_trans _ R T U.
  Proof.
    induction l as [|V l IH]; intros T U; [intros _ []|]. intros [H1 H2] [<-|H].
    - apply t_step, H1.
    - apply t_trans with V; [apply t_step, H1|apply IH; assumption].
  Qed.
  Lemma chain_app l1 : forall T U l2, chain T (l1 ++ U :: l2) -> chain U l2.
  Proof. induction l1 as [|V l1 IH]; intros T U l2; simpl; [tauto|]. intros [_ H]. apply (IH _ _ _ H). Qed.
  Lemma chain_repeat T l : chain T l -> ~ NoDup (T :: l) ->
    exists U, clos_refl_trans _ R T U /\ clos_trans _ R U U.
  Proof.
    revert T. induction l as [|V l IH]; intros T H Hn.
    - exfalso. apply Hn. constructor; [intros []|constructor].
    - destruct (in_dec string_dec T (V :: l)) as [Hin|Hnin].
      + exists T. split; [apply rt_refl|apply (chain_reach _ _ _ H Hin)].
      + destruct H as [H1 H2]. destruct (IH V H2) as [U [HU1 HU2]].
        * intros Hd. apply Hn. constructor; assumption.
        * exists U. split; [|assumption]. apply rt_trans with V; [apply rt_step, H1|assumption].
  Qed.
  (** A cycle gives chains of every length. *)
  Lemma clos_trans_chain T U : clos_trans _ R T U -> exists l, chain T (l ++ [U]).
  Proof.
    intros H. apply clos_trans_t1n in H. induction H as [T U H|T V U H1 H2 [l IH]].
    - exists []. simpl. auto.
    - exists (V :: l). simpl. auto.
  Qed.
  Lemma chain_join T l1 U l2 : chain T (l1 ++ [U]) -> chain U l2 -> chain T (l1 ++ U :: l2).
  Proof.
    revert T. induction l1 as [|V l1 IH]; intros T; simpl; [tauto|]. intros [H1 H2] H. split; [assumption|apply IH; assumption].
  Qed.
  Lemma cycle_chains U : clos_trans _ R U U -> forall n, exists l, chain U l /\ (n <= List.length l)%nat.
  Proof.
    intros H. destruct (clos_trans_chain _ _ H) as [l Hl]. induction n as [|n [l' [H1 H2]]].
    - exists []. split; [exact I|]. simpl. lia.
    - exists (l ++ U :: l')%list. split; [apply chain_join; assumption|]. rewrite app_length. simpl. lia.
  Qed.
  Lemma reach_chains T U : clos_refl_trans _ R T U -> clos_trans _ R U U ->
    forall n, exists l, chain T l /\ (n <= List.length l)%nat.
  Proof.
    intros H HU n. apply clos_rt_rt1n in H. induction H as [T|T V U H1 H2 IH]; [apply cycle_chains, HU|].
    destruct (IH HU) as [l [Hl Hn]]. exists (V :: l). simpl. split; [auto|lia].
  Qed.
End Chains.

(** ** Network lookup *)
Section NetLookup.
  Context (parse_ip : string -> option net) (t : table).
  Hypothesis WF : well_formed t.
  Notation get := (get_net parse_ip).
  Notation ref := (net_ref parse_ip t).
  Notation reach := (net_reach parse_ip t).

  Lemma refers_dec v : {names_token parse_ip v} + {~ names_token parse_ip v}.
  Proof.
    unfold names_token. destruct (token_re v) eqn:E; [left; left; apply token_re_shape, E|].
    destruct (parse_ip v) eqn:Ep; [right|left; right; reflexivity].
    intros [H|H]; [|discriminate]. apply token_re_shape in H. congruence.
  Qed.
  Lemma item_case (fuel : nat) (T i : string) :
    (names_token parse_ip (item_value i) /\
     (if token_re (item_value i) then get fuel t (item_value i)
      else match parse_ip (item_value i) with
           | Some n => Ok [label (item_comment i) T n]
           | None => get fuel t (item_value i) end) = get fuel t (item_value i)) \/
    (~ names_token parse_ip (item_value i) /\ exists n, parse_ip (item_value i) = Some n /\
     (if token_re (item_value i) then get fuel t (item_value i)
      else match parse_ip (item_value i) with
           | Some n => Ok [label (item_comment i) T n]
           | None => get fuel t (item_value i) end) = Ok [label (item_comment i) T n]).
  Proof.
    destruct (refers_dec (item_value i)) as [H|H].
    - left. split; [assumption|]. destruct (token_re (item_value i)) eqn:E; [reflexivity|].
      destruct H as [H|H]; [apply token_re_shape in H; congruence|]. rewrite H. reflexivity.
    - right. split; [assumption|]. destruct (parse_ip (item_value i)) as [n|] eqn:E.
      + exists n. split; [reflexivity|]. destruct (token_re (item_value i)) eqn:Et; [|reflexivity].
        exfalso. apply H. left. apply token_re_shape, Et.
      + exfalso. apply H. right. exact E.
  Qed.

  Lemma concat_in {A} (ls : list (list A)) x : In x (concat ls) <-> exists l, In l ls /\ In x l.
  Proof.
    rewrite in_concat. reflexivity.
  Qed.

  Lemma set_parent_twice a b n : set_parent a (set_parent b n) = set_parent a n.
  Proof. reflexivity. Qed.

  Lemma get_net_ok : forall fuel q T l, query_token q = Ok T -> get fuel t q = Ok l ->
    (forall n, In n l <-> exists m, net_in parse_ip t T m /\ n = set_parent T m) /\
    (forall U, reach T U -> has_definition t U) /\
    (forall c, chain ref T c -> (List.length c < fuel)%nat).
  Proof.
    induction fuel as [|fuel IH]; intros q T l Hq H; [discriminate|].
    cbn [get_net] in H. rewrite Hq in H. cbn [bind] in H.
    destruct (lookup T t) as [items|] eqn:HL; [|discriminate].
    apply bind_ok in H. destruct H as [parts [HM H]]. injection H as <-.
    apply mapM_ok_all in HM.
    assert (Hdef : has_definition t T).
    { destruct (in_dec string_dec T (map fst t)) as [Hd|Hd]; [exact Hd|]. apply lookup_none in Hd. congruence. }
    assert (Hsub : forall U, ref T U -> exists lu, In lu parts /\ get fuel t U = Ok lu /\ word U).
    { intros U [c [He Hr]]. destruct (wf_entry _ _ _ _ WF He) as [items' [i [HL' [Hi [Hv Hc]]]]].
      rewrite HL in HL'. injection HL' as <-. destruct (Forall2_in_l _ _ _ _ HM Hi) as [p [Hp1 Hp2]].
      destruct (item_case fuel T i) as [[Ha Hb]|[Ha _]].
      - cbv beta zeta in Hp2. rewrite Hb in Hp2. rewrite Hv in Hp2. exists p. split; [assumption|]. split; [assumption|]. apply (entry_word _ _ _ _ He).
      - rewrite Hv in Ha. contradiction. }
    split; [|split].
    - intros n. rewrite in_map_iff. split.
      + intros [m [<- Hm]]. apply concat_in in Hm. destruct Hm as [p [Hp Hm]].
        destruct (Forall2_in_r _ _ _ _ HM Hp) as [i [Hi Hpi]]. cbv beta zeta in Hpi.
        destruct (wf_items _ _ _ _ WF HL Hi) as [c [Hs [He Hc]]].
        destruct (item_case fuel T i) as [[Ha Hb]|[Ha [n' [Hn Hb]]]]; rewrite Hb in Hpi.
        * destruct (IH _ _ _ (query_token_word _ (entry_word _ _ _ _ He)) Hpi) as [H1 _].
          apply H1 in Hm. destruct Hm as [m' [Hm' ->]]. exists m'. split; [|apply set_parent_twice].
          eapply ni_nested; eassumption.
        * injection Hpi as <-. destruct Hm as [<-|[]]. exists (label c T n'). split; [|rewrite Hc; reflexivity].
          apply ni_here with (v := item_value i); assumption.
      + intros [m [Hm ->]]. inversion Hm as [T0 v c n0 He Hr Hp E1 E2|T0 v c m0 He Hr Hn E1 E2]; subst.
        * destruct (wf_entry _ _ _ _ WF He) as [items' [i [HL' [Hi [Hv Hc]]]]].
          rewrite HL in HL'. injection HL' as <-. destruct (Forall2_in_l _ _ _ _ HM Hi) as [p [Hp1 Hp2]].
          cbv beta zeta in Hp2. destruct (item_case fuel T i) as [[Ha Hb]|[Ha [n' [Hn' Hb]]]].
          { rewrite Hv in Ha. contradiction. }
          rewrite Hb in Hp2. injection Hp2 as <-. exists (label (item_comment i) T n'). split.
          -- rewrite Hv, Hp in Hn'. injection Hn' as <-. rewrite Hc. reflexivity.
          -- apply concat_in. eexists. split; [exact Hp1|left; reflexivity].
        * destruct (Hsub v) as [lu [H1 [H2 H3]]]; [exists c; auto|].
          destruct (IH _ _ _ (query_token_word _ H3) H2) as [HI _].
          exists (set_parent v m). split; [reflexivity|]. apply concat_in. exists lu. split; [assumption|].
          apply HI. exists m. auto.
    - intros U HU. apply clos_rt_rt1n in HU. inversion HU as [|V W HV HW]; subst; [exact Hdef|].
      destruct (Hsub V HV) as [lu [H1 [H2 H3]]].
      destruct (IH _ _ _ (query_token_word _ H3) H2) as [_ [HI _]]. apply HI. apply clos_rt1n_rt, HW.
    - intros c Hc. destruct c as [|V c]; simpl; [lia|]. destruct Hc as [HV Hc].
      destruct (Hsub V HV) as [lu [H1 [H2 H3]]].
      destruct (IH _ _ _ (query_token_word _ H3) H2) as [_ [_ HI]]. specialize (HI c Hc). lia.
  Qed.

  Lemma get_net_exn : forall fuel q T e, query_token q = Ok T -> get fuel t q = Raise (Exn e) ->
    e = "UndefinedAddressError" /\ exists U, reach T U /\ ~ has_definition t U.
  Proof.
    induction fuel as [|fuel IH]; intros q T e Hq H; [discriminate|].
    cbn [get_net] in H. rewrite Hq in H. cbn [bind] in H.
    destruct (lookup T t) as [items|] eqn:HL.
    - destruct (mapM _ items) as [parts|e'] eqn:HM; cbn [bind] in H; [discriminate|]. injection H as ->.
      apply mapM_raise in HM. destruct HM as [i [Hi Hr]]. cbv beta zeta in Hr.
      destruct (wf_items _ _ _ _ WF HL Hi) as [c [Hs [He Hc]]].
      destruct (item_case fuel T i) as [[Ha Hb]|[Ha [n' [Hn Hb]]]]; rewrite Hb in Hr; [|discriminate].
      destruct (IH _ _ _ (query_token_word _ (entry_word _ _ _ _ He)) Hr) as [H1 [U [H2 H3]]].
      split; [assumption|]. exists U. split; [|assumption]. apply rt_trans with (item_value i); [|assumption].
      apply rt_step. exists c. auto.
    - injection H as <-. split; [reflexivity|]. exists T. split; [apply rt_refl|]. apply lookup_none, HL.
  Qed.

  (** Running out of fuel exhibits a chain of that many defined names. *)
  Lemma get_net_fuel : forall fuel q T, query_token q = Ok T -> get fuel t q = Raise OutOfFuel ->
    fuel = O \/ exists c, chain ref T c /\ S (List.length c) = fuel /\ Forall (has_definition t) (T :: c).
  Proof.
    induction fuel as [|fuel IH]; intros q T Hq H; [left; reflexivity|right].
    cbn [get_net] in H. rewrite Hq in H. cbn [bind] in H.
    destruct (lookup T t) as [items|] eqn:HL; [|discriminate].
    assert (Hdef : has_definition t T).
    { destruct (in_dec string_dec T (map fst t)) as [Hd|Hd]; [exact Hd|]. apply lookup_none in Hd. congruence. }
    destruct (mapM _ items) as [parts|e'] eqn:HM; cbn [bind] in H; [discriminate|]. injection H as ->.
    apply mapM_raise in HM. destruct HM as [i [Hi Hr]]. cbv beta zeta in Hr.
    destruct (wf_items _ _ _ _ WF HL Hi) as [c [Hs [He Hc]]].
    destruct (item_case fuel T i) as [[Ha Hb]|[Ha [n' [Hn Hb]]]]; rewrite Hb in Hr; [|discriminate].
    destruct (IH _ _ (query_token_word _ (entry_word _ _ _ _ He)) Hr) as [->|[l [H1 [H2 H3]]]].
    - exists []. split; [exact I|]. split; [reflexivity|]. constructor; [assumption|constructor].
    - exists (item_value i :: l). split; [split; [exists c; auto|assumption]|]. split; [simpl; lia|].
      constructor; assumption.
  Qed.

  Lemma pigeon (l keys : list string) : (List.length keys < List.length l)%nat -> incl l keys -> ~ NoDup l.
  Proof. intros H Hi N. pose proof (NoDup_incl_length N Hi). lia. Qed.

  Lemma get_net_terminates fuel q T : query_token q = Ok T -> ~ net_cycle parse_ip t T ->
    (List.length t < fuel)%nat -> get fuel t q <> Raise OutOfFuel.
  Proof.
    intros Hq Hc Hf H. destruct (get_net_fuel _ _ _ Hq H) as [->|[c [H1 [H2 H3]]]]; [lia|].
    apply Hc. apply (chain_repeat _ _ c H1). apply pigeon with (map fst t).
    - rewrite map_length. simpl. lia.
    - intros x Hx. rewrite Forall_forall in H3. apply H3, Hx.
  Qed.

  Theorem get_net_spec q T : query_token q = Ok T -> ~ net_cycle parse_ip t T ->
    forall fuel, (List.length t < fuel)%nat ->
    (exists l, get fuel t q = Ok l /\ (forall U, reach T U -> has_definition t U) /\
       forall n, In n l <-> exists m, net_in parse_ip t T m /\ n = set_parent T m) \/
    (get fuel t q = Raise (Exn "UndefinedAddressError") /\ exists U, reach T U /\ ~ has_definition t U).
  Proof.
    intros Hq Hc fuel Hf. destruct (get fuel t q) as [l|[e|]] eqn:E.
    - left. exists l. destruct (get_net_ok _ _ _ _ Hq E) as [H1 [H2 _]]. auto.
    - right. destruct (get_net_exn _ _ _ _ Hq E) as [-> H]. auto.
    - destruct (get_net_terminates _ _ _ Hq Hc Hf E).
  Qed.

  Theorem get_net_terminates_iff q T : query_token q = Ok T ->
    (forall U, reach T U -> has_definition t U) ->
    ((exists fuel l, get fuel t q = Ok l) <-> ~ net_cycle parse_ip t T).
  Proof.
    intros Hq Hd. split.
    - intros [fuel [l H]] [U [HU1 HU2]]. destruct (get_net_ok _ _ _ _ Hq H) as [_ [_ Hl]].
      destruct (reach_chains _ _ _ HU1 HU2 fuel) as [c [Hc1 Hc2]]. specialize (Hl c Hc1). lia.
    - intros Hc. exists (S (List.length t)). destruct (get_net_spec q T Hq Hc (S (List.length t))) as [[l [H _]]|[_ [U [H1 H2]]]]; [lia|eauto|].
      exfalso. apply H2, Hd, H1.
  Qed.

  Theorem get_net_diverges q T : query_token q = Ok T ->
    (forall U, reach T U -> has_definition t U) -> net_cycle parse_ip t T ->
    forall fuel, get fuel t q = Raise OutOfFuel.
  Proof.
    intros Hq Hd Hc fuel. destruct (get fuel t q) as [l|[e|]] eqn:E; [| |reflexivity]; exfalso.
    - apply (proj1 (get_net_terminates_iff q T Hq Hd)); eauto.
    - destruct (get_net_exn _ _ _ _ Hq E) as [_ [U [H1 H2]]]. apply H2, Hd, H1.
  Qed.
End NetLookup.
