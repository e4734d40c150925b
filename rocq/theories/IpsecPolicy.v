(** IP security policies of Windows as a whole: the objects of all headers and terms, and what they say. *)
From Coq Require Import Lia ZifyBool ZifyNat.
From Verif Require Import SpecWin SpecGce SpecPf BaseFacts IPFacts PyStrFacts TextProofs PolicyProofs GenProofs GenProofs2 CiscoProofs CiscoProofs2 CiscoAcl GceProofs GceDecide QuietTerm PfText PfRule PfTerm PfPolicy WinProofs WinPolicy IpsecProofs.
From Verif Require Import SpecWin SpecIpsec.
Local Open Scope string_scope.
Local Open Scope list_scope.
Local Open Scope Z_scope.

(** ** The objects of a term *)
Record item := mkItem { ii_name : string; ii_filter : string; ii_action : string; ii_matches : list ips_match }.
Definition item_block (i : item) : list ips_command :=
  (ips_pre_cmds (ii_name i) (ii_action i) ++ map (IFilter (ii_name i ++ "-list")) (ii_matches i) ++ ips_pre_cmds (ii_name i) (ii_action i))
  ++ [IRule (ii_name i ++ "-rule") (ii_filter i) (ii_name i ++ "-list") (ii_name i ++ "-action")].
Definition stands (today : Z) (x : (option (list string) * list string) * term) (o : option item) : Prop :=
  match o with
  | None => forall policy p v, ips_traffic p -> ~ ips_term_says today policy p x v
  | Some i => ii_name i = ips_name (ii_filter i) (t_name (snd x)) /\ ii_filter i <> "" /\
      (exists opts, win_asks (fst x) (ii_filter i) opts) /\ in_force today (snd x) /\ meant_for "windows_ipsec" (snd x) /\ not_established (snd x) /\
      term_item (ii_filter i) (snd x) (ii_action i) (ii_matches i)
  end.
Lemma ips_default_sub : forall s, str_in s (supported default_tokens) = false -> str_in s (supported ips_tokens) = false.
Proof.
  assert (H : forallb (fun s => str_in s (supported default_tokens)) (supported ips_tokens) = true) by (vm_compute; reflexivity). rewrite forallb_forall in H.
  intros s E. destruct (str_in s (supported ips_tokens)) eqn:X; [|reflexivity]. apply str_in_spec in X. apply H in X. congruence.
Qed.
Lemma mirror_traffic p : ips_traffic p -> ips_traffic (mirror p).
Proof. intros [(A & B) C D E F]. constructor; cbn; auto. Qed.
Lemma terms_objects today filters ts (h : option (list string) * list string) name opts :
  check_tokens "windows_ipsec" ips_tokens filters = Ok tt -> In (["windows_ipsec"], ts) filters -> win_asks h name opts -> no_ws name -> name <> "" ->
  forall terms seen kept ls, win_terms today seen terms = Ok kept -> mapM (ips_term_lines "inet" name) kept = Ok ls -> incl terms ts ->
  (forall t, In t terms -> in_force today t -> meant_for "windows_ipsec" t -> not_established t -> ips_term_ok t) ->
  exists os cmds, Forall2 (stands today) (map (pair h) terms) os /\ ips_read (concat ls) = Some cmds /\ forall c, In c cmds <-> exists i, In (Some i) os /\ In c (item_block i).
Proof.
  intros Ck If Ha Wn Nn. induction terms as [|t terms IH]; intros seen kept ls H Hm Inc K; cbn [win_terms] in H.
  - apply ok_inj in H. subst kept. cbn [mapM] in Hm. apply ok_inj in Hm. subst ls. exists [], []. split; [constructor|]. split; [reflexivity|]. intros c. split; [intros []|intros (i & [] & _)].
  - destruct (str_in (t_name t) seen); [discriminate H|]. apply bind_ok in H. destruct H as (more & Hmore & H). apply ok_inj in H.
    assert (Inc' : incl terms ts) by (intros x I; apply Inc; right; exact I).
    assert (Skip : forall os cmds, Forall2 (stands today) (map (pair h) terms) os -> (forall c, In c cmds <-> exists i, In (Some i) os /\ In c (item_block i)) -> (forall policy p v, ips_traffic p -> ~ ips_term_says today policy p (h, t) v) ->
      Forall2 (stands today) (map (pair h) (t :: terms)) (None :: os) /\ forall c, In c cmds <-> exists i, In (Some i) (None :: os) /\ In c (item_block i)).
    { intros os cmds F Mem N. split; [constructor; [exact N|exact F]|]. intros c. rewrite Mem. split; intros (i & I & J); exists i; (split; [|exact J]); [right; exact I|destruct I as [I|I]; [discriminate I|exact I]]. }
    destruct (expired today t || str_in "established" (t_option t) || str_in "tcp-established" (t_option t)) eqn:Sk.
    + subst kept. destruct (IH _ _ _ Hmore Hm Inc' (fun x I => K x (or_intror I))) as (os & cmds & F & R & Mem).
      destruct (Skip os cmds F Mem) as (F' & Mem'). { intros policy p v _ (op & a & _ & Fo & _ & (N1 & N2) & _). apply expired_force in Fo. rewrite Fo in Sk. cbn [orb] in Sk. apply orb_true_iff in Sk.
        destruct Sk as [Sk|Sk]; apply str_in_spec in Sk; contradiction. }
      exists (None :: os), cmds. auto.
    + subst kept. cbn [mapM] in Hm. apply bind_ok in Hm. destruct Hm as (l & Hl & Hm). apply bind_ok in Hm. destruct Hm as (ls' & Hls & Hm). apply ok_inj in Hm. subst ls.
      destruct (IH _ _ _ Hmore Hls Inc' (fun x I => K x (or_intror I))) as (os & cmds & F & R & Mem).
      apply orb_false_iff in Sk. destruct Sk as (Sk & E2). apply orb_false_iff in Sk. destruct Sk as (Ex & E1).
      assert (Fo : in_force today t) by (apply expired_force, Ex).
      assert (Ne : not_established t) by (split; intros X; apply str_in_spec in X; congruence).
      unfold ips_term_lines in Hl. apply bind_ok in Hl. destruct Hl as (r & Hr & Hl). apply ok_inj in Hl.
      destruct ((some (t_platform t) && negb (str_in "windows_ipsec" (t_platform t))) || (some (t_platform_exclude t) && str_in "windows_ipsec" (t_platform_exclude t))) eqn:Mt.
      * unfold ips_term in Hr. rewrite Mt in Hr. apply ok_inj in Hr. subst r l.
        destruct (Skip os cmds F Mem) as (F' & Mem'). { intros policy p v _ (op & a & _ & _ & M & _). apply ips_meant in M. congruence. }
        exists (None :: os), cmds. auto.
      * pose proof (proj1 (ips_meant t) Mt) as M. pose proof (K t (or_introl eq_refl) Fo M Ne) as Kt. destruct (io_warned _ Kt) as (A1 & A2 & A3 & A4 & A5 & A6).
        assert (It : In t ts) by (apply Inc; left; reflexivity).
        assert (Q : quiet "windows_ipsec" t).
        { apply (accepted_quiet "windows_ipsec" ips_tokens filters ["windows_ipsec"] ts t); try assumption; [apply ips_default_sub|left; reflexivity]. }
        assert (Ac : forall a, In a (t_action t) -> In a ["accept"; "deny"]).
        { destruct (sub_tokens_listed "windows_ipsec" ips_tokens filters ["windows_ipsec"] ts t ["accept"; "deny"] Ck If (or_introl eq_refl) It M) as (_ & Ac & _).
          - intros [X|[X|[]]]; discriminate X.
          - apply Ac. reflexivity. }
        pose proof (term_objects name t r Kt Wn M Q Ac Hr) as T. destruct r as [tl|].
        -- destruct T as (act & ms & Ti & El). exists (Some (mkItem (ips_name name (t_name t)) name act ms) :: os), (item_block (mkItem (ips_name name (t_name t)) name act ms) ++ cmds).
           split; [constructor; [|exact F]|split].
           ++ split; [reflexivity|]. split; [exact Nn|]. split; [exists opts; exact Ha|]. auto.
           ++ subst l. cbn [concat]. apply ips_read_app; [|exact R]. unfold item_block. cbn [ii_name ii_filter ii_action ii_matches].
              apply ips_read_app; [apply ips_read_lines, El|]. change [ips_rule name (t_name t); ""] with ([ips_rule name (t_name t)] ++ [""]).
              rewrite <- (app_nil_r [IRule _ _ _ _]). apply ips_read_app; [|reflexivity]. apply ips_read_lines. cbn [map]. rewrite rule_line; [reflexivity|exact Wn|apply name_no_ws; [exact Wn|apply (io_name _ Kt)]].
           ++ intros c. rewrite in_app_iff, Mem. split.
              ** intros [I|(i & I & J)]; [eexists; split; [left; reflexivity|exact I]|exists i; split; [right; exact I|exact J]].
              ** intros (i & [I|I] & J); [left; injection I as <-; exact J|right; exists i; auto].
        -- subst l. destruct (Skip os cmds F Mem) as (F' & Mem'). { intros policy p v Tp (op & a & _ & _ & _ & _ & [X|X] & _); [exact (T p Tp X)|exact (T _ (mirror_traffic p Tp) X)]. }
           exists (None :: os), cmds. auto.
Qed.

(** ** Headers *)
Lemma header_lines name comment default all terms ls bs cmds : no_ws name -> mapM (ips_term_lines "inet" name) terms = Ok ls -> ips_read (concat ls) = Some cmds ->
  ips_filter_lines (all, ((name, comment), ("inet", default), terms)) = Ok bs -> ips_read bs = Some (IPolicy (name ++ "-policy") :: cmds).
Proof.
  intros W Em R H. unfold ips_filter_lines in H. destruct (negb (some all)); [discriminate H|]. destruct default; [discriminate H|]. rewrite Em in H. cbn [bind] in H. apply ok_inj in H. subst bs.
  change ([(": Windows_ipsec " ++ name ++ " Policy")%string; ips_add ("policy name=" ++ name ++ "-policy assign=yes"); ""]) with ([(": Windows_ipsec " ++ name ++ " Policy")%string] ++ [ips_add ("policy name=" ++ name ++ "-policy assign=yes")] ++ [""]).
  rewrite <- !app_assoc. apply (ips_read_app _ _ [] _); [reflexivity|]. apply (ips_read_app _ _ [IPolicy (name ++ "-policy")] cmds); [apply ips_read_lines; cbn [map]; rewrite (policy_line name W); reflexivity|].
  rewrite !app_assoc. apply (ips_read_app _ _ [] cmds); [|exact R]. apply ips_read_silent. intros l I. unfold is_command. rewrite !in_app_iff in I.
  assert (S : starts_with ":" l || forall_char is_ws l = true); [|rewrite S; reflexivity]. destruct I as [[[I|I]|I]|I].
  - destruct I as [<-|[]]. reflexivity.
  - destruct (wrap_words comment 70 lf) as [|c cs]; [destruct I|]. destruct (is_empty c); [destruct I|]. apply in_app_iff in I. destruct I as [I|[<-|[]]]; [|reflexivity].
    apply in_map_iff in I. destruct I as (l' & <- & _). cbn [append]. rewrite label_colon. reflexivity.
  - cbn in I. repeat (destruct I as [<-|I]; [reflexivity|]). destruct I.
  - destruct I as [<-|[]]. reflexivity.
Qed.
Definition policy_of (fs : list ((option (list string) * list string) * list term)) (c : ips_command) : Prop :=
  exists h terms name opts, In (h, terms) fs /\ win_asks h name opts /\ c = IPolicy (name ++ "-policy").
Lemma headers_objects today all : check_tokens "windows_ipsec" ips_tokens (map (fun f : (option (list string) * list string) * list term => (match fst (fst f) with Some _ => ["windows_ipsec"] | None => [] end, snd f)) all) = Ok tt ->
  ips_policy_ok today all ->
  forall fs default filters ls, incl fs all -> win_filters today ["inet"] default fs = Ok filters ->
  mapM ips_filter_lines (combine (flat_map (fun f => match fst (fst f) with Some all => [all] | None => [] end) fs) filters) = Ok ls ->
  exists os cmds, Forall2 (stands today) (ips_terms fs) os /\ ips_read (concat ls) = Some cmds /\ forall c, In c cmds <-> policy_of fs c \/ exists i, In (Some i) os /\ In c (item_block i).
Proof.
  intros Ck [Po _]. induction fs as [|(h, terms) fs IH]; intros default filters ls Inc H Hm; cbn [win_filters flat_map fst] in H, Hm.
  - apply ok_inj in H. subst filters. cbn [combine mapM] in Hm. apply ok_inj in Hm. subst ls. exists [], []. split; [constructor|]. split; [reflexivity|]. intros c. split; [intros []|intros [(h & terms & _ & _ & [] & _)|(i & [] & _)]].
  - assert (Ih : In (h, terms) all) by (apply Inc; left; reflexivity). assert (Inc' : incl fs all) by (intros x I; apply Inc; right; exact I).
    destruct (fst h) as [allopts|] eqn:Eh.
    + destruct (negb _) in H; [discriminate H|]. apply bind_ok in H. destruct H as (af & Haf & H). apply bind_ok in H. destruct H as (kept & Hk & H).
      destruct (some kept && negb (some allopts)); [discriminate H|]. apply bind_ok in H. destruct H as (more & Hmore & H). apply ok_inj in H. subst filters.
      cbn [app combine mapM] in Hm. apply bind_ok in Hm. destruct Hm as (l & Hl & Hm). apply bind_ok in Hm. destruct Hm as (ls' & Hls & Hm). apply ok_inj in Hm. subst ls.
      destruct (Po h terms Ih ltac:(congruence)) as (name & opts & Ha & Wn & Nn & K). assert (Ea : allopts = name :: opts) by (unfold win_asks in Ha; congruence). subst allopts. cbn [tl] in *.
      destruct (IH _ _ _ Inc' Hmore Hls) as (os & cmds & F & R & Mem).
      assert (Ef : af = "inet") by (unfold win_family in Haf; cbn [filter] in Haf; destruct (str_in "inet" opts); apply ok_inj in Haf; congruence). subst af.
      assert (En : asa_name h = name) by (unfold asa_name; rewrite Eh; reflexivity). rewrite En in *.
      assert (X : exists lt, mapM (ips_term_lines "inet" name) kept = Ok lt).
      { unfold ips_filter_lines in Hl. cbn [some negb] in Hl. destruct (default || win_default (name :: opts)); [discriminate Hl|]. apply bind_ok in Hl. destruct Hl as (lt & X & _). eauto. }
      destruct X as (lt & X).
      pose proof (in_map (fun f : (option (list string) * list string) * list term => (match fst (fst f) with Some _ => ["windows_ipsec"] | None => [] end, snd f)) _ _ Ih) as If.
      cbn [fst snd] in If. rewrite Eh in If.
      destruct (terms_objects today _ terms h name opts Ck If Ha Wn Nn _ _ _ _ Hk X (incl_refl _) K) as (os1 & cmds1 & F1 & R1 & Mem1).
      exists (os1 ++ os), ((IPolicy (name ++ "-policy") :: cmds1) ++ cmds). split; [|split].
      * unfold ips_terms, win_terms_of in *. cbn [flat_map fst snd]. rewrite filter_app. apply Forall2_app; [|exact F].
        replace (filter _ (map (pair h) terms)) with (map (pair h) terms); [exact F1|]. clear - Eh. induction terms as [|t terms IHt]; [reflexivity|]. cbn [map filter fst]. rewrite Eh, <- IHt. reflexivity.
      * cbn [concat]. apply ips_read_app; [|exact R]. exact (header_lines _ _ _ _ _ _ _ _ Wn X R1 Hl).
      * intros c. rewrite in_app_iff, Mem. cbn [In]. rewrite Mem1. split.
        -- intros [[<-|(i & I & J)]|[(h' & ts' & n' & o' & I & A & E)|(i & I & J)]].
           ++ left. exists h, terms, name, opts. split; [left; reflexivity|]. auto.
           ++ right. exists i. split; [apply in_app_iff; left; exact I|exact J].
           ++ left. exists h', ts', n', o'. split; [right; exact I|]. auto.
           ++ right. exists i. split; [apply in_app_iff; right; exact I|exact J].
        -- intros [(h' & ts' & n' & o' & [I|I] & A & E)|(i & I & J)].
           ++ apply pair_equal_spec in I. destruct I as (<- & <-). unfold win_asks in A, Ha. rewrite Ha in A. injection A as <- <-. left. left. congruence.
           ++ right. left. exists h', ts', n', o'. auto.
           ++ apply in_app_iff in I. destruct I as [I|I]; [left; right; exists i; auto|right; right; exists i; auto].
    + cbn [app] in Hm. destruct (IH _ _ _ Inc' H Hm) as (os & cmds & F & R & Mem). exists os, cmds. split; [|split; [exact R|]].
      * unfold ips_terms, win_terms_of in *. cbn [flat_map fst snd]. rewrite filter_app. replace (filter _ (map (pair h) terms)) with (@nil ((option (list string) * list string) * term)); [exact F|].
        clear - Eh. induction terms as [|t terms IHt]; [reflexivity|]. cbn [map filter fst]. rewrite Eh. exact IHt.
      * intros c. rewrite Mem. split; (intros [(h' & ts' & n' & o' & I & A & E)|X]; [left; exists h', ts', n', o'|right; exact X]).
        -- split; [right; exact I|auto].
        -- destruct I as [I|I]; [apply pair_equal_spec in I; destruct I as (<- & _); unfold win_asks in A; congruence|auto].
Qed.

(** ** What all objects say *)
Lemma same_item {A B C} (R : A -> option B -> Prop) (f : A -> C) (g : B -> C) l os : Forall2 R l os -> (forall x i, In x l -> R x (Some i) -> g i = f x) -> NoDup (map f l) ->
  forall i j, In (Some i) os -> In (Some j) os -> g i = g j -> i = j.
Proof.
  intros F. assert (P : forall l os, Forall2 R l os -> (forall x i, In x l -> R x (Some i) -> g i = f x) -> forall i, In (Some i) os -> In (g i) (map f l)).
  { clear. intros l os F. induction F as [|x o l os H F IH]; intros K i I; [destruct I|]. cbn [map]. destruct I as [->|I]; [left; symmetry; apply K; [left; reflexivity|exact H]|right; apply IH; [intros y j J; apply K; right; exact J|exact I]]. }
  induction F as [|x o l os H F IH]; intros K N i j Ii Ij E; [destruct Ii|]. cbn [map] in N. inversion N as [|? ? N1 N2]; subst.
  assert (K' : forall y k, In y l -> R y (Some k) -> g k = f y) by (intros y k J; apply K; right; exact J).
  destruct Ii as [->|Ii], Ij as [Ej|Ij].
  - congruence.
  - exfalso. apply N1. rewrite <- (K x i (or_introl eq_refl) H), E. exact (P l os F K' j Ij).
  - subst o. exfalso. apply N1. rewrite <- (K x j (or_introl eq_refl) H), <- E. exact (P l os F K' i Ii).
  - apply IH; assumption.
Qed.
Lemma action_first cmds name o : In (IAction name o) cmds -> (forall o', In (IAction name o') cmds -> o' = o) -> action_is cmds name o.
Proof.
  induction cmds as [|c cmds IH]; intros I U; [destruct I|]. assert (D : (exists o', c = IAction name o') \/ forall o', c <> IAction name o').
  { destruct c as [n|n|n a|n m|n q l a]; try (right; intros o' X; discriminate X). destruct (string_dec n name) as [->|Ne]; [left; eauto|right; intros o' X; congruence]. }
  destruct D as [(o' & ->)|D].
  - rewrite (U o' (or_introl eq_refl)). exists [], cmds. split; [reflexivity|]. intros ? [].
  - destruct I as [->|I]; [destruct (D o eq_refl)|]. destruct (IH I (fun o' J => U o' (or_intror J))) as (b & a & -> & N). exists (c :: b), a. split; [reflexivity|]. intros o' [->|J]; [exact (D o' eq_refl)|exact (N o' J)].
Qed.
Lemma app_inj_r a b s : (a ++ s)%string = (b ++ s)%string -> a = b.
Proof.
  revert b. induction a as [|c a IH]; intros [|d b] E; [reflexivity| | |].
  - exfalso. apply (f_equal String.length) in E. cbn [append String.length] in E. rewrite GenProofs.length_app in E. lia.
  - exfalso. apply (f_equal String.length) in E. cbn [append String.length] in E. rewrite GenProofs.length_app in E. lia.
  - cbn [append] in E. injection E as -> E. f_equal. apply IH, E.
Qed.
Lemma label_inj f n f' n' : f <> "" -> f' <> "" -> ips_name f n = ips_name f' n' -> slice_to f 1 = slice_to f' 1 /\ n = n'.
Proof.
  intros A B. destruct f as [|c f]; [congruence|]. destruct f' as [|c' f']; [congruence|]. unfold ips_name.
  assert (S : forall c f, slice_to (String c f) 1 = String c "") by (intros; unfold slice_to; cbn; destruct f0; reflexivity). rewrite !S. cbn [append]. intros E. injection E as -> ->. auto.
Qed.
Lemma objects_say today fs lines : ips_policy_ok today fs -> ips_text today fs = Ok lines ->
  exists cmds, ips_read lines = Some cmds /\
    (forall policy p o, ips_traffic p -> ips_says cmds policy p o <-> exists x, In x (ips_terms fs) /\ ips_term_says today policy p x o) /\
    (forall n, In (IPolicy n) cmds -> exists h terms name opts, In (h, terms) fs /\ win_asks h name opts /\ n = (name ++ "-policy")%string) /\
    (forall n policy l a, In (IRule n policy l a) cmds -> exists h terms opts, In (h, terms) fs /\ win_asks h policy opts).
Proof.
  intros Po H. unfold ips_text in H. apply bind_ok in H. destruct H as ([] & Ck & H). apply bind_ok in H. destruct H as (filters & Hf & H). apply bind_ok in H. destruct H as (ls & Hl & H). apply ok_inj in H. subst lines.
  destruct (headers_objects today fs Ck Po fs _ _ _ (incl_refl _) Hf Hl) as (os & cmds & F & R & Mem). exists cmds.
  assert (Sx : forall i, In (Some i) os -> exists x, In x (ips_terms fs) /\ stands today x (Some i)).
  { clear - F. induction F as [|x o l os H F IH]; intros i I; [destruct I|]. destruct I as [->|I]; [exists x; split; [left; reflexivity|exact H]|]. destruct (IH i I) as (y & J & S). exists y. split; [right; exact J|exact S]. }
  assert (Si : forall x, In x (ips_terms fs) -> exists o, In o os /\ stands today x o).
  { clear - F. induction F as [|x o l os H F IH]; intros y I; [destruct I|]. destruct I as [->|I]; [exists o; split; [left; reflexivity|exact H]|]. destruct (IH y I) as (o' & J & S). exists o'. split; [right; exact J|exact S]. }
  assert (Same : forall i j, In (Some i) os -> In (Some j) os -> ii_name i = ii_name j -> i = j).
  { intros i j Ii Ij E. destruct (Sx i Ii) as (x & _ & Ei & Ni & _). destruct (Sx j Ij) as (y & _ & Ej & Nj & _). rewrite Ei, Ej in E. destruct (label_inj _ _ _ _ Ni Nj E) as (E1 & E2).
    apply (same_item (fun x o => stands today x o) ips_label (fun i => (slice_to (ii_filter i) 1, match ii_name i with String _ (String _ n) => n | _ => "" end)) _ _ F); try assumption.
    - intros z k _ (Ek & Nk & (op & Ak) & _). unfold ips_label. unfold win_asks in Ak. rewrite Ak. rewrite Ek. destruct (ii_filter k) as [|c f]; [congruence|]. unfold ips_name.
      assert (S : slice_to (String c f) 1 = String c "") by (unfold slice_to; cbn; destruct f; reflexivity). rewrite S. reflexivity.
    - apply (ip_labels _ _ Po).
    - rewrite Ei, Ej, E, E1. reflexivity. }
  split; [|split; [|split]].
  - rewrite <- (app_nil_r cmds). apply ips_read_app; [exact R|reflexivity].
  - intros policy p o Tp. split.
    + intros (name & l & a & Ir & (m & Im & Sm) & (before & after & Ec & _)). apply Mem in Ir. destruct Ir as [(? & ? & ? & ? & _ & _ & X)|(i & Ii & Ir)]; [discriminate X|].
      unfold item_block, ips_pre_cmds in Ir. rewrite !in_app_iff in Ir. cbn [In] in Ir. assert (Er : IRule (ii_name i ++ "-rule") (ii_filter i) (ii_name i ++ "-list") (ii_name i ++ "-action") = IRule name policy l a).
      { destruct Ir as [[[X|[X|[]]]|[X|[X|[X|[]]]]]|[X|[]]]; try discriminate X; [apply in_map_iff in X; destruct X as (? & X & _); discriminate X|exact X]. }
      injection Er as E1 E2 E3 E4. clear Ir.
      assert (Ia : In (IAction a o) cmds) by (rewrite Ec; apply in_app_iff; right; left; reflexivity).
      apply Mem in Im. destruct Im as [(? & ? & ? & ? & _ & _ & X)|(j & Ij & Im)]; [discriminate X|]. apply Mem in Ia. destruct Ia as [(? & ? & ? & ? & _ & _ & X)|(k & Ik & Ia)]; [discriminate X|].
      unfold item_block, ips_pre_cmds in Im, Ia. rewrite !in_app_iff in Im, Ia. cbn [In] in Im, Ia.
      assert (Mj : (ii_name j ++ "-list")%string = l /\ In m (ii_matches j)).
      { destruct Im as [[[X|[X|[]]]|[X|[X|[X|[]]]]]|[X|[]]]; try discriminate X. apply in_map_iff in X. destruct X as (m' & X & J). injection X as X ->. auto. }
      assert (Mk : (ii_name k ++ "-action")%string = a /\ ii_action k = o).
      { destruct Ia as [[[X|[X|[]]]|[X|[X|[X|[]]]]]|[X|[]]]; try discriminate X; try (injection X as X ->; auto; fail). apply in_map_iff in X. destruct X as (m' & X & J). discriminate X. }
      destruct Mj as (Ej & Mj), Mk as (Ek & Mk). rewrite <- E3 in Ej. rewrite <- E4 in Ek. apply app_inj_r in Ej. apply app_inj_r in Ek.
      apply Same in Ej; [|assumption|assumption]. apply Same in Ek; [|assumption|assumption]. subst j k.
      destruct (Sx i Ii) as ((h, t) & Ix & _ & _ & (opts & Ha) & Fo & Me & Ne & (act & Ea & Va) & Tm). cbn [fst snd] in *. exists (h, t). split; [exact Ix|]. exists opts, act. rewrite <- E2.
      split; [exact Ha|]. split; [exact Fo|]. split; [exact Me|]. split; [exact Ne|]. split; [|split; [exact Ea|congruence]].
      destruct Sm as [Sm|Sm]; [left; apply Tm; eauto|right; apply Tm; [apply mirror_traffic, Tp|eauto]].
    + intros ((h, t) & Ix & Sy). destruct (Si _ Ix) as ([i|] & Ii & St); [|destruct (St policy p o Tp Sy)]. destruct St as (En & _ & (opts' & Ha') & _ & _ & _ & (act & Ea & Va) & Tm). cbn [fst snd] in *.
      destruct Sy as (opts & a & Ha & _ & _ & _ & Mt & Ea' & Va'). assert (Ep : policy = ii_filter i) by (unfold win_asks in Ha, Ha'; congruence). assert (Eo : ii_action i = o) by congruence.
      exists (ii_name i ++ "-rule")%string, (ii_name i ++ "-list")%string, (ii_name i ++ "-action")%string. split; [|split].
      * apply Mem. right. exists i. split; [exact Ii|]. unfold item_block. apply in_app_iff. right. left. rewrite Ep. reflexivity.
      * assert (X : exists m, In m (ii_matches i) /\ (match_says m p \/ match_says m (mirror p))).
        { destruct Mt as [Mt|Mt]; [apply (Tm p Tp) in Mt|apply (Tm _ (mirror_traffic p Tp)) in Mt]; destruct Mt as (m & Im & Sm); exists m; auto. }
        destruct X as (m & Im & Sm). exists m. split; [|exact Sm]. apply Mem. right. exists i. split; [exact Ii|]. unfold item_block. rewrite !in_app_iff. left. right. left. apply in_map, Im.
      * apply action_first.
        -- apply Mem. right. exists i. split; [exact Ii|]. unfold item_block. rewrite !in_app_iff. left. left. right. left. rewrite Eo. reflexivity.
        -- intros o' Ia. apply Mem in Ia. destruct Ia as [(? & ? & ? & ? & _ & _ & X)|(k & Ik & Ia)]; [discriminate X|]. unfold item_block, ips_pre_cmds in Ia. rewrite !in_app_iff in Ia. cbn [In] in Ia.
           assert (Mk : (ii_name k ++ "-action")%string = (ii_name i ++ "-action")%string /\ ii_action k = o').
           { destruct Ia as [[[X|[X|[]]]|[X|[X|[X|[]]]]]|[X|[]]]; try discriminate X; try (injection X as X ->; auto; fail). apply in_map_iff in X. destruct X as (m' & X & J). discriminate X. }
           destruct Mk as (Ek & Mk). apply app_inj_r in Ek. apply Same in Ek; [|assumption|assumption]. subst k. congruence.
  - intros n I. apply Mem in I. destruct I as [(h & terms & name & opts & I & A & E)|(i & _ & I)]; [injection E as ->; exists h, terms, name, opts; auto|]. exfalso.
    unfold item_block, ips_pre_cmds in I. rewrite !in_app_iff in I. cbn [In] in I. destruct I as [[[X|[X|[]]]|[X|[X|[X|[]]]]]|[X|[]]]; try discriminate X. apply in_map_iff in X. destruct X as (? & X & _). discriminate X.
  - intros n policy l a I. apply Mem in I. destruct I as [(h & terms & name & opts & _ & _ & E)|(i & Ii & I)]; [discriminate E|]. destruct (Sx i Ii) as ((h, t) & Ix & _ & _ & (opts & Ha) & _).
    unfold item_block, ips_pre_cmds in I. rewrite !in_app_iff in I. cbn [In] in I. assert (E : ii_filter i = policy).
    { destruct I as [[[X|[X|[]]]|[X|[X|[X|[]]]]]|[X|[]]]; try discriminate X; [apply in_map_iff in X; destruct X as (? & X & _); discriminate X|]. injection X. auto. }
    unfold ips_terms in Ix. apply filter_In in Ix. destruct Ix as (Ix & _). unfold win_terms_of in Ix. apply in_flat_map in Ix. destruct Ix as ((h', ts) & I1 & I2). apply in_map_iff in I2. destruct I2 as (t' & E2 & _). apply pair_equal_spec in E2. destruct E2 as (<- & _).
    exists h', ts, opts. cbn [fst] in Ha. rewrite E in Ha. auto.
Qed.
