(** Service lookups (GetService, GetServiceByProto, TranslatePorts). *)
From Coq Require Import Lia Sorted Relations Permutation.
From Verif Require Import BaseFacts PyStrFacts SpecNaming NamingProofs.
Local Open Scope string_scope.

Section ServiceLookup.
  Context (t : table).
  Hypothesis WF : well_formed t.
  Notation ref := (service_ref t).
  Notation reach := (service_reach t).

  Section Expand.
    Context (get : string -> res (list string)).
    Lemma expand_ok items : forall done acc l,
      expand_items get items done acc = Ok l ->
      forall s, In s l <->
        In s acc \/ (exists i, In i items /\ item_value i = s /\ has_char "/" s = true) \/
        (exists i lu, In i items /\ has_char "/" (item_value i) = false /\ ~ In (item_value i) done /\
           get (item_value i) = Ok lu /\ In s lu).
    Proof.
      induction items as [|i items IH]; intros done acc l H s; cbn [expand_items] in H.
      - injection H as <-. split; [auto|]. intros [H|[[i [[] _]]|[i [lu [[] _]]]]]. exact H.
      - destruct (has_char "/" (item_value i)) eqn:E.
        + rewrite (IH _ _ _ H s), in_app_iff. split.
          * intros [[H1|[<-|[]]]|[[j [H1 H2]]|[j [lu [H1 H2]]]]]; [auto| | |].
            -- right. left. exists i. split; [left; reflexivity|auto].
            -- right. left. exists j. split; [right; assumption|auto].
            -- right. right. exists j, lu. split; [right; assumption|auto].
          * intros [H1|[[j [[->|H1] H2]]|[j [lu [[->|H1] H2]]]]]; [auto| | | |].
            -- destruct H2 as [<- _]. left. right. left. reflexivity.
            -- right. left. exists j. auto.
            -- destruct H2 as [H2 _]. congruence.
            -- right. right. exists j, lu. auto.
        + destruct (str_in (item_value i) done) eqn:Ed.
          * apply str_in_spec in Ed. rewrite (IH _ _ _ H s). split.
            -- intros [H1|[[j [H1 H2]]|[j [lu [H1 H2]]]]]; [auto| |].
               ++ right. left. exists j. split; [right; assumption|auto].
               ++ right. right. exists j, lu. split; [right; assumption|auto].
            -- intros [H1|[[j [[->|H1] H2]]|[j [lu [[->|H1] H2]]]]]; [auto| | | |].
               ++ destruct H2 as [<- H2]. congruence.
               ++ right. left. exists j. auto.
               ++ destruct H2 as [_ [H2 _]]. contradiction.
               ++ right. right. exists j, lu. auto.
          * assert (Hnd : ~ In (item_value i) done) by (rewrite <- str_in_spec, Ed; discriminate).
            apply bind_ok in H. destruct H as [sub [Hs H]]. rewrite (IH _ _ _ H s), in_app_iff. split.
            -- intros [[H1|H1]|[[j [H1 H2]]|[j [lu [H1 [H2 [H3 H4]]]]]]]; [auto| | |].
               ++ right. right. exists i, sub. split; [left; reflexivity|auto].
               ++ right. left. exists j. split; [right; assumption|auto].
               ++ right. right. exists j, lu. split; [right; assumption|]. split; [assumption|]. split; [|assumption].
                  intros Hin. apply H3. right. exact Hin.
            -- intros [H1|[[j [[->|H1] H2]]|[j [lu [[->|H1] [H2 [H3 [H4 H5]]]]]]]]; [auto| | | |].
               ++ destruct H2 as [<- H2]. congruence.
               ++ right. left. exists j. auto.
               ++ left. right. congruence.
               ++ destruct (string_dec (item_value i) (item_value j)) as [Eij|Nij].
                  ** left. right. rewrite Eij in Hs. congruence.
                  ** right. right. exists j, lu. split; [assumption|]. split; [assumption|]. split; [|auto].
                     intros [Hin|Hin]; contradiction.
    Qed.

    (** Every reference was looked up with success. *)
    Lemma expand_all items : forall done acc l, expand_items get items done acc = Ok l ->
      forall i, In i items -> has_char "/" (item_value i) = false -> ~ In (item_value i) done ->
      exists lu, get (item_value i) = Ok lu.
    Proof.
      induction items as [|j items IH]; intros done acc l H i; [intros []|]. cbn [expand_items] in H.
      intros Hi Hn Hd. destruct (has_char "/" (item_value j)) eqn:E.
      - destruct Hi as [->|Hi]; [congruence|]. eapply IH; eassumption.
      - destruct (str_in (item_value j) done) eqn:Ed.
        + apply str_in_spec in Ed. destruct Hi as [->|Hi]; [contradiction|]. eapply IH; eassumption.
        + apply bind_ok in H. destruct H as [sub [Hs H]].
          destruct (string_dec (item_value j) (item_value i)) as [Eij|Nij]; [rewrite <- Eij; eauto|].
          destruct Hi as [->|Hi]; [congruence|]. eapply IH; [eassumption|assumption|assumption|].
          intros [Hin|Hin]; contradiction.
    Qed.

    Lemma expand_raise items : forall done acc e, expand_items get items done acc = Raise e ->
      exists i, In i items /\ has_char "/" (item_value i) = false /\ ~ In (item_value i) done /\
        get (item_value i) = Raise e.
    Proof.
      induction items as [|j items IH]; intros done acc e H; cbn [expand_items] in H; [discriminate|].
      destruct (has_char "/" (item_value j)) eqn:E.
      - destruct (IH _ _ _ H) as [i [H1 H2]]. exists i. split; [right|]; assumption.
      - destruct (str_in (item_value j) done) eqn:Ed.
        + destruct (IH _ _ _ H) as [i [H1 H2]]. exists i. split; [right|]; assumption.
        + destruct (get (item_value j)) as [sub|e'] eqn:Eg; cbn [bind] in H.
          * destruct (IH _ _ _ H) as [i [H1 [H2 [H3 H4]]]]. exists i. split; [right; assumption|]. split; [assumption|].
            split; [|assumption]. intros Hin. apply H3. right. exact Hin.
          * injection H as <-. exists j. split; [left; reflexivity|]. split; [assumption|]. split; [|assumption].
            rewrite <- str_in_spec, Ed. discriminate.
    Qed.
  End Expand.

  Lemma get_service_ok : forall fuel q T l, query_token q = Ok T -> get_service fuel t q = Ok l ->
    (forall s, In s l <-> service_in t T s) /\
    (forall U, reach T U -> has_definition t U) /\
    (forall c, chain ref T c -> (List.length c < fuel)%nat).
  Proof.
    induction fuel as [|fuel IH]; intros q T l Hq H; [discriminate|].
    cbn [get_service] in H. rewrite Hq in H. cbn [bind] in H.
    destruct (lookup T t) as [items|] eqn:HL; [|discriminate].
    apply bind_ok in H. destruct H as [all [HE H]]. injection H as <-.
    assert (Hdef : has_definition t T).
    { destruct (in_dec string_dec T (map fst t)) as [Hd|Hd]; [exact Hd|]. apply lookup_none in Hd. congruence. }
    assert (Hsub : forall U, ref T U -> exists lu, get_service fuel t U = Ok lu /\ word U).
    { intros U [c [He [Hr Hne]]]. destruct (wf_entry _ _ _ _ WF He) as [items' [i [HL' [Hi [Hv Hc]]]]].
      rewrite HL in HL'. injection HL' as <-. rewrite not_occurs in Hr.
      destruct (expand_all _ _ _ _ _ HE i Hi) as [lu Hlu]; rewrite ?Hv; try assumption.
      - intros [Hx|[]]. congruence.
      - rewrite Hv in Hlu. exists lu. split; [assumption|]. apply (entry_word _ _ _ _ He). }
    pose proof (expand_ok _ _ _ _ _ HE) as HO.
    split; [|split].
    - intros s. rewrite sorted_set_in, HO. split.
      + intros [[]|[[i [Hi [<- Hs]]]|[i [lu [Hi [Hs [Hd [Hg Hl]]]]]]]].
        * destruct (wf_items _ _ _ _ WF HL Hi) as [c [_ [He _]]]. eapply si_here; [exact He|]. apply occurs_has, Hs.
        * destruct (wf_items _ _ _ _ WF HL Hi) as [c [_ [He _]]]. eapply si_nested; [exact He|apply not_occurs, Hs|].
          destruct (IH _ _ _ (query_token_word _ (entry_word _ _ _ _ He)) Hg) as [HI _]. apply HI, Hl.
      + intros Hs. clear HO. pose proof (expand_ok _ _ _ _ _ HE) as HO.
        assert (Gen : forall T' s', service_in t T' s' -> T' = T ->
          (exists i, In i items /\ item_value i = s' /\ has_char "/" s' = true) \/
          (exists i lu, In i items /\ has_char "/" (item_value i) = false /\ ~ In (item_value i) [T] /\
             get_service fuel t (item_value i) = Ok lu /\ In s' lu)).
        { intros T' s' Hs'. induction Hs' as [T' v c He Ho|T' v c s' He Ho Hin IHs]; intros ->.
          - left. destruct (wf_entry _ _ _ _ WF He) as [items' [i [HL' [Hi [Hv Hc]]]]].
            rewrite HL in HL'. injection HL' as <-. exists i. split; [assumption|]. split; [assumption|]. apply occurs_has, Ho.
          - destruct (string_dec v T) as [->|Hne]; [apply IHs; reflexivity|].
            right. destruct (Hsub v) as [lu [Hg Hw]]; [exists c; auto|].
            destruct (wf_entry _ _ _ _ WF He) as [items' [i [HL' [Hi [Hv Hc]]]]].
            rewrite HL in HL'. injection HL' as <-. exists i, lu. rewrite Hv. split; [assumption|].
            split; [apply not_occurs, Ho|]. split; [intros [Hx|[]]; congruence|]. split; [assumption|].
            destruct (IH _ _ _ (query_token_word _ Hw) Hg) as [HI _]. apply HI, Hin. }
        right. apply (Gen _ _ Hs eq_refl).
    - intros U HU. apply clos_rt_rt1n in HU. inversion HU as [|V W HV HW]; subst; [exact Hdef|].
      destruct (Hsub V HV) as [lu [H2 H3]].
      destruct (IH _ _ _ (query_token_word _ H3) H2) as [_ [HI _]]. apply HI. apply clos_rt1n_rt, HW.
    - intros c Hc. destruct c as [|V c]; simpl; [lia|]. destruct Hc as [HV Hc].
      destruct (Hsub V HV) as [lu [H2 H3]].
      destruct (IH _ _ _ (query_token_word _ H3) H2) as [_ [_ HI]]. specialize (HI c Hc). lia.
  Qed.

  Lemma item_ref T items i : lookup T t = Some items -> In i items ->
    has_char "/" (item_value i) = false -> ~ In (item_value i) [T] -> ref T (item_value i) /\ word (item_value i).
  Proof.
    intros HL Hi Hs Hn. destruct (wf_items _ _ _ _ WF HL Hi) as [c [Hsay [He _]]]. split.
    - exists c. split; [assumption|]. split; [apply not_occurs, Hs|]. intros E. apply Hn. left. congruence.
    - apply (entry_word _ _ _ _ He).
  Qed.

  Lemma get_service_exn : forall fuel q T e, query_token q = Ok T -> get_service fuel t q = Raise (Exn e) ->
    e = "UndefinedServiceError" /\ exists U, reach T U /\ ~ has_definition t U.
  Proof.
    induction fuel as [|fuel IH]; intros q T e Hq H; [discriminate|].
    cbn [get_service] in H. rewrite Hq in H. cbn [bind] in H.
    destruct (lookup T t) as [items|] eqn:HL.
    - destruct (expand_items _ items _ _) as [parts|e'] eqn:HM; cbn [bind] in H; [discriminate|]. injection H as ->.
      apply expand_raise in HM. destruct HM as [i [Hi [Hs [Hn Hr]]]].
      destruct (item_ref _ _ _ HL Hi Hs Hn) as [Href Hw].
      destruct (IH _ _ _ (query_token_word _ Hw) Hr) as [H1 [U [H2 H3]]].
      split; [assumption|]. exists U. split; [|assumption]. apply rt_trans with (item_value i); [apply rt_step, Href|assumption].
    - injection H as <-. split; [reflexivity|]. exists T. split; [apply rt_refl|]. apply lookup_none, HL.
  Qed.

  Lemma get_service_fuel : forall fuel q T, query_token q = Ok T -> get_service fuel t q = Raise OutOfFuel ->
    fuel = O \/ exists c, chain ref T c /\ S (List.length c) = fuel /\ Forall (has_definition t) (T :: c).
  Proof.
    induction fuel as [|fuel IH]; intros q T Hq H; [left; reflexivity|right].
    cbn [get_service] in H. rewrite Hq in H. cbn [bind] in H.
    destruct (lookup T t) as [items|] eqn:HL; [|discriminate].
    assert (Hdef : has_definition t T).
    { destruct (in_dec string_dec T (map fst t)) as [Hd|Hd]; [exact Hd|]. apply lookup_none in Hd. congruence. }
    destruct (expand_items _ items _ _) as [parts|e'] eqn:HM; cbn [bind] in H; [discriminate|]. injection H as ->.
    apply expand_raise in HM. destruct HM as [i [Hi [Hs [Hn Hr]]]].
    destruct (item_ref _ _ _ HL Hi Hs Hn) as [Href Hw].
    destruct (IH _ _ (query_token_word _ Hw) Hr) as [->|[l [H1 [H2 H3]]]].
    - exists []. split; [exact I|]. split; [reflexivity|]. constructor; [assumption|constructor].
    - exists (item_value i :: l). split; [split; assumption|]. split; [simpl; lia|]. constructor; assumption.
  Qed.

  Lemma get_service_terminates fuel q T : query_token q = Ok T -> ~ service_cycle t T ->
    (List.length t < fuel)%nat -> get_service fuel t q <> Raise OutOfFuel.
  Proof.
    intros Hq Hc Hf H. destruct (get_service_fuel _ _ _ Hq H) as [->|[c [H1 [H2 H3]]]]; [lia|].
    apply Hc. apply (chain_repeat _ _ c H1). apply pigeon with (map fst t).
    - rewrite map_length. simpl. lia.
    - intros x Hx. rewrite Forall_forall in H3. apply H3, Hx.
  Qed.

  Lemma str_lt_before a b : str_lt a b -> str_before a b.
  Proof.
    intros [H Hn]. revert b H Hn. induction a as [|x a IH]; intros b H Hn.
    - left. exists b. split; [congruence|reflexivity].
    - destruct b as [|y b]; [discriminate|]. cbn [str_leb] in H.
      destruct (Nat.ltb_spec (nat_of_ascii x) (nat_of_ascii y)).
      + right. exists "", x, y, a, b. simpl. auto.
      + destruct (Nat.ltb_spec (nat_of_ascii y) (nat_of_ascii x)); [discriminate|].
        assert (x = y) by (rewrite <- (ascii_nat_embedding x), <- (ascii_nat_embedding y); f_equal; lia). subst y.
        destruct (IH b H) as [[q [Hq ->]]|[p [c [d [u [v [-> [-> Hcd]]]]]]]]; [congruence| |].
        * left. exists q. auto.
        * right. exists (String x p), c, d, u, v. auto.
  Qed.
  Lemma sorted_set_before l : StronglySorted str_before (sorted_set l).
  Proof.
    pose proof (sorted_set_strict l) as S. induction S as [|x r S IH F]; constructor; [assumption|].
    rewrite Forall_forall in *. intros y Hy. apply str_lt_before, F, Hy.
  Qed.
  Lemma get_service_sorted fuel q l : get_service fuel t q = Ok l -> StronglySorted str_before l.
  Proof.
    destruct fuel as [|fuel]; [discriminate|]. cbn [get_service]. intros H. apply bind_ok in H.
    destruct H as [n [_ H]]. destruct (lookup n t); [|discriminate]. apply bind_ok in H.
    destruct H as [all [_ H]]. injection H as <-. apply sorted_set_before.
  Qed.

  Theorem get_service_spec q T : query_token q = Ok T -> ~ service_cycle t T ->
    forall fuel, (List.length t < fuel)%nat ->
    (exists l, get_service fuel t q = Ok l /\ (forall U, reach T U -> has_definition t U) /\
       StronglySorted str_before l /\ forall s, In s l <-> service_in t T s) \/
    (get_service fuel t q = Raise (Exn "UndefinedServiceError") /\ exists U, reach T U /\ ~ has_definition t U).
  Proof.
    intros Hq Hc fuel Hf. destruct (get_service fuel t q) as [l|[e|]] eqn:E.
    - left. exists l. destruct (get_service_ok _ _ _ _ Hq E) as [H1 [H2 _]].
      pose proof (get_service_sorted _ _ _ E). auto.
    - right. destruct (get_service_exn _ _ _ _ Hq E) as [-> H]. auto.
    - destruct (get_service_terminates _ _ _ Hq Hc Hf E).
  Qed.

  Theorem get_service_terminates_iff q T : query_token q = Ok T ->
    (forall U, reach T U -> has_definition t U) ->
    ((exists fuel l, get_service fuel t q = Ok l) <-> ~ service_cycle t T).
  Proof.
    intros Hq Hd. split.
    - intros [fuel [l H]] [U [HU1 HU2]]. destruct (get_service_ok _ _ _ _ Hq H) as [_ [_ Hl]].
      destruct (reach_chains _ _ _ HU1 HU2 fuel) as [c [Hc1 Hc2]]. specialize (Hl c Hc1). lia.
    - intros Hc. exists (S (List.length t)). destruct (get_service_spec q T Hq Hc (S (List.length t))) as [[l [H _]]|[_ [U [H1 H2]]]]; [lia|eauto|].
      exfalso. apply H2, Hd, H1.
  Qed.

  Theorem get_service_diverges q T : query_token q = Ok T ->
    (forall U, reach T U -> has_definition t U) -> service_cycle t T ->
    forall fuel, get_service fuel t q = Raise OutOfFuel.
  Proof.
    intros Hq Hd Hc fuel. destruct (get_service fuel t q) as [l|[e|]] eqn:E; [| |reflexivity]; exfalso.
    - apply (proj1 (get_service_terminates_iff q T Hq Hd)); eauto.
    - destruct (get_service_exn _ _ _ _ Hq E) as [_ [U [H1 H2]]]. apply H2, Hd, H1.
  Qed.
End ServiceLookup.
