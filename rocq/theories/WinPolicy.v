(** The advanced firewall of Windows: whole policies. *)
From Coq Require Import Lia ZifyBool ZifyNat.
From Verif Require Import SpecWin SpecGce SpecPf BaseFacts IPFacts PyStrFacts TextProofs PolicyProofs GenProofs GenProofs2 CiscoProofs CiscoProofs2 CiscoAcl GceProofs GceDecide QuietTerm PfText PfRule PfTerm PfPolicy WinProofs.
Local Open Scope string_scope.
Local Open Scope list_scope.
Local Open Scope Z_scope.

(** ** Reading *)
Lemma all_some_app {A} (a b : list (option A)) x y : all_some a = Some x -> all_some b = Some y -> all_some (a ++ b) = Some (x ++ y).
Proof.
  revert x. induction a as [|[u|] a IH]; intros x E F; cbn [all_some app] in *; [injection E as <-; exact F| |discriminate E].
  destruct (all_some a) as [l|] eqn:G; [|discriminate E]. injection E as <-. rewrite (IH l eq_refl F). reflexivity.
Qed.
Lemma adv_read_app a b x y : adv_read a = Some x -> adv_read b = Some y -> adv_read (a ++ b) = Some (x ++ y).
Proof. unfold adv_read. rewrite filter_app, map_app. apply all_some_app. Qed.
Lemma adv_read_lines ls rs : map read_line ls = map Some rs -> adv_read ls = Some rs.
Proof.
  unfold adv_read. revert rs. induction ls as [|l ls IH]; intros [|r rs] E; try discriminate E; [reflexivity|]. cbn [map] in E. injection E as E1 E2. unfold read_line in E1.
  cbn [filter]. destruct (is_command l); [|discriminate E1]. cbn [map all_some]. rewrite E1. specialize (IH rs E2). rewrite IH. reflexivity.
Qed.
Lemma adv_read_labels ls : (forall l, In l ls -> starts_with ":" l = true) -> adv_read ls = Some [].
Proof.
  unfold adv_read. induction ls as [|l ls IH]; intros H; [reflexivity|]. cbn [filter]. unfold is_command. rewrite (H l (or_introl eq_refl)). cbn [orb negb]. apply IH. intros x I. apply H. right. exact I.
Qed.
Lemma label_colon s : starts_with ":" (String ":" s) = true.
Proof. unfold starts_with. cbn. destruct s; reflexivity. Qed.

(** ** Headers *)
Lemma win_family_spec opts af : win_family ["inet"; "inet6"] opts = Ok af -> af = "inet" /\ win_version opts = V4 \/ af = "inet6" /\ win_version opts = V6.
Proof.
  unfold win_family, win_version. cbn [filter]. destruct (str_in "inet" opts), (str_in "inet6" opts); intros H; try discriminate H; apply ok_inj in H; subst af; auto.
Qed.
Definition says_block (today : Z) (x : (option (list string) * list string) * term) (b : list adv_entry) : Prop :=
  forall p d o, In d ["in"; "out"] -> adv_traffic p -> (forall name opts, win_asks (fst x) name opts -> lower name = d -> win_version opts = fst (p_src p)) ->
    ((exists r, In r b /\ adv_applies d p r /\ av_action r = o) <-> adv_term_says today d p x o).
Lemma no_block today x : (forall d p o, ~ adv_term_says today d p x o) -> says_block today x [].
Proof. intros H p d o _ _ _. split; [intros (r & [] & _)|intros S; destruct (H d p o S)]. Qed.
Lemma win_default_sub : forall s, str_in s (supported default_tokens) = false -> str_in s (supported win_tokens) = false.
Proof.
  assert (H : forallb (fun s => str_in s (supported default_tokens)) (supported win_tokens) = true) by (vm_compute; reflexivity). rewrite forallb_forall in H.
  intros s E. destruct (str_in s (supported win_tokens)) eqn:X; [|reflexivity]. apply str_in_spec in X. apply H in X. congruence.
Qed.
Lemma terms_blocks today filters ts (h : option (list string) * list string) name opts af :
  check_tokens "windows_advfirewall" win_tokens filters = Ok tt -> In (["windows_advfirewall"], ts) filters -> win_asks h name opts -> win_family ["inet"; "inet6"] opts = Ok af -> In (lower name) ["in"; "out"] ->
  forall terms seen kept ls, win_terms today seen terms = Ok kept -> mapM (adv_term af name) kept = Ok ls -> incl terms ts ->
  (forall t, In t terms -> in_force today t -> meant_for "windows_advfirewall" t -> not_established t -> adv_term_ok (win_version opts) t) ->
  exists blocks, Forall2 (fun t b => says_block today (h, t) b) terms blocks /\ adv_read (concat ls) = Some (concat blocks).
Proof.
  intros Ck If Ha Fam Nm. induction terms as [|t terms IH]; intros seen kept ls H Hm Inc K; cbn [win_terms] in H.
  - apply ok_inj in H. subst kept. cbn [mapM] in Hm. apply ok_inj in Hm. subst ls. exists []. split; [constructor|reflexivity].
  - destruct (str_in (t_name t) seen); [discriminate H|]. apply bind_ok in H. destruct H as (more & Hmore & H). apply ok_inj in H.
    assert (Inc' : incl terms ts) by (intros x I; apply Inc; right; exact I).
    destruct (expired today t || str_in "established" (t_option t) || str_in "tcp-established" (t_option t)) eqn:Sk.
    + subst kept. destruct (IH _ _ _ Hmore Hm Inc' (fun x I => K x (or_intror I))) as (blocks & F & R). exists ([] :: blocks). split; [constructor; [|exact F]|exact R].
      apply no_block. intros d p o (nm & op & a & _ & _ & _ & Fo & _ & (N1 & N2) & _). apply expired_force in Fo. rewrite Fo in Sk. cbn [orb] in Sk. apply orb_true_iff in Sk.
      destruct Sk as [Sk|Sk]; apply str_in_spec in Sk; contradiction.
    + subst kept. cbn [mapM] in Hm. apply bind_ok in Hm. destruct Hm as (l & Hl & Hm). apply bind_ok in Hm. destruct Hm as (ls' & Hls & Hm). apply ok_inj in Hm. subst ls.
      destruct (IH _ _ _ Hmore Hls Inc' (fun x I => K x (or_intror I))) as (blocks & F & R).
      apply orb_false_iff in Sk. destruct Sk as (Sk & E2). apply orb_false_iff in Sk. destruct Sk as (Ex & E1).
      assert (Fo : in_force today t) by (apply expired_force, Ex).
      assert (Ne : not_established t) by (split; intros X; apply str_in_spec in X; congruence).
      assert (B : exists b, says_block today (h, t) b /\ adv_read l = Some b).
      { destruct ((some (t_platform t) && negb (str_in "windows_advfirewall" (t_platform t))) || (some (t_platform_exclude t) && str_in "windows_advfirewall" (t_platform_exclude t))) eqn:Mt.
        - exists []. split.
          + apply no_block. intros d p o (nm & op & a & _ & _ & _ & _ & M & _). apply win_meant in M. congruence.
          + unfold adv_term in Hl. rewrite Mt in Hl. apply ok_inj in Hl. subst l. reflexivity.
        - pose proof (proj1 (win_meant t) Mt) as M. pose proof (K t (or_introl eq_refl) Fo M Ne) as Kt. destruct (ao_warned _ _ Kt) as (A1 & A2 & A3 & A4 & A5 & A6).
          assert (It : In t ts) by (apply Inc; left; reflexivity).
          assert (Q : quiet "windows_advfirewall" t).
          { apply (accepted_quiet "windows_advfirewall" win_tokens filters ["windows_advfirewall"] ts t); try assumption; [apply win_default_sub|left; reflexivity]. }
          assert (Ac : forall a, In a (t_action t) -> In a ["accept"; "deny"]).
          { destruct (sub_tokens_listed "windows_advfirewall" win_tokens filters ["windows_advfirewall"] ts t ["accept"; "deny"] Ck If (or_introl eq_refl) It M) as (_ & Ac & _).
            - intros [X|[X|[]]]; discriminate X.
            - apply Ac. reflexivity. }
          destruct (term_rules af (win_version opts) name t l (win_family_spec _ _ Fam) Kt Nm M Q Ac Hl) as (rs & Er & S).
          exists rs. split; [|apply adv_read_lines, Er]. intros p d o Hd Tp Hv. cbn [fst] in Hv.
          rewrite (S p d o Hd Tp (fun E => eq_sym (Hv name opts Ha E))). unfold adv_term_says. split.
          + intros (B1 & B2 & a & B3 & B4). exists name, opts, a. specialize (Hv name opts Ha B1). auto 12.
          + intros (nm & op & a & Ha' & B1 & _ & _ & _ & _ & B2 & B3 & B4). unfold win_asks in Ha, Ha'. rewrite Ha in Ha'. injection Ha' as <- <-. split; [exact B1|]. split; [exact B2|]. exists a. auto. }
      destruct B as (b & B1 & B2). exists (b :: blocks). split; [constructor; assumption|]. cbn [concat]. apply adv_read_app; assumption.
Qed.
Lemma filter_lines_reads name comment af default terms ls bs blocks : mapM (adv_term af name) terms = Ok ls -> adv_read (concat ls) = Some blocks ->
  win_filter_lines "Windows_advfirewall" adv_term ((name, comment), (af, default), terms) = Ok bs -> adv_read bs = Some blocks.
Proof.
  intros Em R H. unfold win_filter_lines in H. destruct default; [discriminate H|]. rewrite Em in H. cbn [bind] in H. apply ok_inj in H. subst bs. rewrite !app_assoc.
  apply (adv_read_app _ _ [] blocks); [|exact R]. apply adv_read_labels. intros l I. rewrite !in_app_iff in I. destruct I as [[[I|I]|I]|I].
  - destruct I as [<-|[]]. apply label_colon.
  - destruct (wrap_words comment 70 lf) as [|c cs]; [destruct I|]. destruct (is_empty c); [destruct I|]. apply in_app_iff in I. destruct I as [I|[<-|[]]]; [|reflexivity].
    apply in_map_iff in I. destruct I as (l' & <- & _). apply label_colon.
  - cbn in I. repeat (destruct I as [<-|I]; [reflexivity|]). destruct I.
  - destruct I as [<-|[]]. apply label_colon.
Qed.
Lemma filters_spec today all : check_tokens "windows_advfirewall" win_tokens (map (fun f : (option (list string) * list string) * list term => (match fst (fst f) with Some _ => ["windows_advfirewall"] | None => [] end, snd f)) all) = Ok tt ->
  adv_policy_ok today all ->
  forall fs default filters ls, incl fs all -> win_filters today ["inet"; "inet6"] default fs = Ok filters -> mapM (win_filter_lines "Windows_advfirewall" adv_term) filters = Ok ls ->
  exists blocks, Forall2 (says_block today) (win_terms_of fs) blocks /\ adv_read (concat ls) = Some (concat blocks).
Proof.
  intros Ck Po. induction fs as [|(h, terms) fs IH]; intros default filters ls Inc H Hm; cbn [win_filters] in H.
  - apply ok_inj in H. subst filters. cbn [mapM] in Hm. apply ok_inj in Hm. subst ls. exists []. split; [constructor|reflexivity].
  - assert (Ih : In (h, terms) all) by (apply Inc; left; reflexivity). assert (Inc' : incl fs all) by (intros x I; apply Inc; right; exact I).
    destruct (fst h) as [allopts|] eqn:Eh.
    + destruct (negb _) in H; [discriminate H|]. apply bind_ok in H. destruct H as (af & Haf & H). apply bind_ok in H. destruct H as (kept & Hk & H).
      destruct (some kept && negb (some allopts)); [discriminate H|]. apply bind_ok in H. destruct H as (more & Hmore & H). apply ok_inj in H. subst filters.
      cbn [mapM] in Hm. apply bind_ok in Hm. destruct Hm as (l & Hl & Hm). apply bind_ok in Hm. destruct Hm as (ls' & Hls & Hm). apply ok_inj in Hm. subst ls.
      destruct (Po h terms Ih ltac:(congruence)) as (name & opts & Ha & Nm & K). assert (Ea : allopts = name :: opts) by (unfold win_asks in Ha; congruence). subst allopts. cbn [tl] in *.
      destruct (IH _ _ _ Inc' Hmore Hls) as (blocks & F & R).
      assert (X : exists lt, mapM (adv_term af (asa_name h)) kept = Ok lt) by (unfold win_filter_lines in Hl; destruct (default || win_default (name :: opts)); [discriminate Hl|]; apply bind_ok in Hl; destruct Hl as (lt & X & _); eauto).
      destruct X as (lt & X). assert (En : asa_name h = name) by (unfold asa_name; rewrite Eh; reflexivity). rewrite En in *.
      pose proof (in_map (fun f : (option (list string) * list string) * list term => (match fst (fst f) with Some _ => ["windows_advfirewall"] | None => [] end, snd f)) _ _ Ih) as If.
      cbn [fst snd] in If. rewrite Eh in If.
      destruct (terms_blocks today _ terms h name opts af Ck If Ha Haf Nm _ _ _ _ Hk X (incl_refl _) K) as (bl & Fb & Rb).
      exists (bl ++ blocks). split.
      * unfold win_terms_of in *. cbn [flat_map fst snd]. apply Forall2_app; [|exact F]. clear - Fb. induction Fb; cbn [map]; constructor; assumption.
      * cbn [concat]. rewrite concat_app. apply adv_read_app; [|exact R]. exact (filter_lines_reads _ _ _ _ _ _ _ _ X Rb Hl).
    + destruct (IH _ _ _ Inc' H Hm) as (blocks & F & R). exists (map (fun _ => []) terms ++ blocks). split.
      * unfold win_terms_of in *. cbn [flat_map fst snd]. apply Forall2_app; [|exact F]. clear - Eh. induction terms as [|t terms IH]; cbn [map]; constructor; [|exact IH].
        apply no_block. intros d p o (nm & op & a & Ha & _). unfold win_asks in Ha. congruence.
      * rewrite concat_app. replace (concat (map (fun _ : term => @nil adv_entry) terms)) with (@nil adv_entry) by (clear; induction terms; [reflexivity|exact IHterms]). exact R.
Qed.

(** ** Decisions *)
Lemma block_wins_blocks {A B} (says : A -> string -> Prop) (sb : B -> string -> Prop) l blocks :
  Forall2 (fun x b => forall o, (exists r, In r b /\ sb r o) <-> says x o) l blocks -> forall o, block_wins sb (concat blocks) o <-> block_wins says l o.
Proof.
  intros F. assert (E : forall o, (exists r, In r (concat blocks) /\ sb r o) <-> exists x, In x l /\ says x o).
  { intros o. induction F as [|x b l blocks H F IH]; [split; intros (? & [] & _)|]. cbn [concat]. split.
    - intros (r & I & S). apply in_app_iff in I. destruct I as [I|I]; [exists x; split; [left; reflexivity|apply H; eauto]|]. destruct (proj1 IH) as (y & Iy & Sy); [eauto|]. exists y. split; [right; exact Iy|exact Sy].
    - intros (y & [<-|I] & S); [apply H in S; destruct S as (r & I & S); exists r; split; [apply in_app_iff; left; exact I|exact S]|]. destruct (proj2 IH) as (r & Ir & Sr); [eauto|]. exists r. split; [apply in_app_iff; right; exact Ir|exact Sr]. }
  intros o. unfold block_wins. rewrite !E. reflexivity.
Qed.
Lemma rules_decide today fs lines : adv_policy_ok today fs -> adv_text today fs = Ok lines ->
  exists rules, adv_read lines = Some rules /\ forall d p, In d ["in"; "out"] -> adv_traffic p -> SpecWin.one_family fs d (fst (p_src p)) ->
    forall o, adv_decides rules d p o <-> block_wins (adv_term_says today d p) (win_terms_of fs) o.
Proof.
  intros Po H. unfold adv_text in H. apply bind_ok in H. destruct H as ([] & Ck & H). apply bind_ok in H. destruct H as (filters & Hf & H). apply bind_ok in H. destruct H as (ls & Hl & H). apply ok_inj in H. subst lines.
  destruct (filters_spec today fs Ck Po fs _ _ _ (incl_refl _) Hf Hl) as (blocks & F & R). exists (concat blocks). split.
  - rewrite <- (app_nil_r (concat blocks)). apply adv_read_app; [exact R|reflexivity].
  - intros d p Hd Tp One o. unfold adv_decides. apply block_wins_blocks.
    assert (G : forall x, In x (win_terms_of fs) -> forall name opts, win_asks (fst x) name opts -> lower name = d -> win_version opts = fst (p_src p)).
    { intros x I name opts Ha E. unfold win_terms_of in I. apply in_flat_map in I. destruct I as ((h, terms) & I1 & I2). apply in_map_iff in I2. destruct I2 as (t & <- & _). exact (One h terms name opts I1 Ha E). }
    revert G. clear - F Hd Tp. induction F as [|x b l blocks Hx F IH]; intros G; constructor; [|apply IH; intros y I; apply G; right; exact I].
    intros o'. exact (Hx p d o' Hd Tp (G x (or_introl eq_refl))).
Qed.
Lemma denies_first_wins today fs d p : denies_first fs -> forall o, block_wins (adv_term_says today d p) (win_terms_of fs) o <-> first_says (adv_term_says today d p) (win_terms_of fs) o.
Proof.
  intros Df. assert (Out : forall x o, adv_term_says today d p x o -> (o = "allow" /\ t_action (snd x) = ["accept"]) \/ (o = "block" /\ t_action (snd x) = ["deny"])).
  { intros (h, t) o (name & opts & a & _ & _ & _ & _ & _ & _ & _ & Ea & Wv). cbn [snd]. unfold win_verdict in Wv. rewrite Ea. destruct (String.eqb a "accept") eqn:E1; [apply String.eqb_eq in E1; subst a; left; split; [congruence|reflexivity]|].
    destruct (String.eqb a "deny") eqn:E2; [|discriminate Wv]. apply String.eqb_eq in E2. subst a. right. split; [congruence|reflexivity]. }
  unfold denies_first in Df. revert Df. generalize (win_terms_of fs). intros l Df o. split.
  - intros [(-> & x & I & S)|(-> & (x & I & S) & Nb)].
    + apply in_split in I. destruct I as (u & w & E). exists u, x, w. split; [exact E|]. split; [exact S|]. intros y a Iy Sy. destruct (Out y a Sy) as [(-> & Ay)|(-> & _)]; [|reflexivity].
      exfalso. apply in_split in Iy. destruct Iy as (u1 & u2 & ->). destruct (Out x _ S) as [(X & _)|(_ & Ax)]; [discriminate X|]. apply (Df u1 y u2 x w); [rewrite E, <- app_assoc; reflexivity|exact Ay|exact Ax].
    + apply in_split in I. destruct I as (u & w & E). exists u, x, w. split; [exact E|]. split; [exact S|]. intros y a Iy Sy. destruct (Out y a Sy) as [(-> & _)|(-> & _)]; [reflexivity|].
      exfalso. apply Nb. exists y. split; [rewrite E; apply in_app_iff; left; exact Iy|exact Sy].
  - intros (u & x & w & E & S & Fi). assert (Ix : In x l) by (rewrite E; apply in_app_iff; right; left; reflexivity). destruct (Out x o S) as [(-> & Ax)|(-> & _)]; [right|left; split; [reflexivity|eauto]].
    split; [reflexivity|]. split; [eauto|]. intros (y & Iy & Sy). destruct (Out y _ Sy) as [(X & _)|(_ & Ay)]; [discriminate X|]. rewrite E in Iy. apply in_app_iff in Iy. destruct Iy as [Iy|[<-|Iy]].
    + specialize (Fi y _ Iy Sy). discriminate Fi.
    + rewrite Ax in Ay. discriminate Ay.
    + apply in_split in Iy. destruct Iy as (w1 & w2 & ->). exact (Df u x w1 y w2 E Ax Ay).
Qed.
