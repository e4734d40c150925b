From Coq Require Import Lia ZifyBool ZifyNat Permutation.
From Verif Require Import SpecAclgen BaseFacts PyStrFacts GenProofs CiscoProofs.
Local Open Scope string_scope.
Local Open Scope list_scope.
Local Open Scope Z_scope.

(** ** Comparison of texts *)

Definition keep_line (line : string) : bool := negb (existsb (fun t => substring_of t line) p4_tags).
Lemma keep_line_spec line : keep_line line = false <-> tag_line line.
Proof.
  unfold keep_line, tag_line, p4_tags. cbn [existsb]. rewrite negb_false_iff, !orb_true_iff, !substring_of_spec.
  split; [intros [H|[H|[H|H]]]; auto; discriminate H|intros [H|[H|H]]; auto].
Qed.
Lemma without_tags_filter ls rs : without_tags ls rs <-> rs = filter keep_line ls.
Proof.
  split.
  - induction 1 as [|l ls rs T W IH|l ls rs T W IH]; cbn [filter]; [reflexivity| |].
    + apply keep_line_spec in T. rewrite T. exact IH.
    + destruct (keep_line l) eqn:E; [rewrite IH; reflexivity|]. apply keep_line_spec in E. contradiction.
  - intros ->. induction ls as [|l ls IH]; cbn [filter]; [constructor|].
    destruct (keep_line l) eqn:E.
    + constructor; [|exact IH]. intros T. apply keep_line_spec in T. congruence.
    + constructor; [apply keep_line_spec, E|exact IH].
Qed.
Lemma same_but_tags_iff a b : same_but_tags a b <-> filter keep_line (lines_of a) = filter keep_line (lines_of b).
Proof.
  unfold same_but_tags. split.
  - intros (rs & A & B). apply without_tags_filter in A, B. congruence.
  - intros E. exists (filter keep_line (lines_of a)). split; apply without_tags_filter; [reflexivity|exact E].
Qed.
Lemma same_but_tags_refl a : same_but_tags a a.
Proof. apply same_but_tags_iff. reflexivity. Qed.
Lemma files_updated_text old new : files_updated (Some old) new false = false <-> same_but_tags (universal_newlines old) new.
Proof.
  unfold files_updated. fold keep_line. rewrite same_but_tags_iff, negb_false_iff. unfold lines_of.
  apply list_str_eqb_iff.
Qed.
Lemma universal_plain s : plain_text s -> universal_newlines s = s.
Proof.
  unfold plain_text. induction s as [|c s IH]; cbn [has_char universal_newlines]; [reflexivity|].
  destruct (Ascii.eqb c cr) eqn:E; [discriminate|]. cbn [orb]. intros H. rewrite IH by exact H. reflexivity.
Qed.
Lemma files_updated_binary old new : starts_with "b" new = false -> files_updated old new true = true.
Proof.
  destruct old as [c|]; [|reflexivity]. unfold files_updated, repr_bytes. intros H.
  destruct (String.eqb _ _) eqn:E; [|reflexivity]. apply String.eqb_eq in E. subst new. discriminate H.
Qed.

(** ** Disks *)

Lemma path_eqb_iff a b : path_eqb a b = true <-> a = b.
Proof.
  unfold path_eqb. rewrite andb_true_iff, !String.eqb_eq. destruct a, b; cbn. split; [intros (-> & ->); reflexivity|intros [= -> ->]; auto].
Qed.
Lemma write_files_app d a b : write_files d (a ++ b) = write_files (write_files d a) b.
Proof. apply fold_left_app. Qed.
Lemma write_files_none d ws p : (forall t, ~ In (p, t) ws) -> write_files d ws p = d p.
Proof.
  revert d. induction ws as [|(q, t) ws IH]; intros d N; [reflexivity|]. unfold write_files in *. cbn [fold_left fst snd].
  rewrite IH by (intros t' I; apply (N t'); right; exact I). unfold write_file.
  destruct (path_eqb p q) eqn:E; [|reflexivity]. apply path_eqb_iff in E. subst q. destruct (N t). left. reflexivity.
Qed.
Lemma write_files_some d ws p t : In (p, t) ws -> (forall t', In (p, t') ws -> t' = t) -> write_files d ws p = Some t.
Proof.
  revert d. induction ws as [|(q, t0) ws IH]; intros d I U; [destruct I|].
  unfold write_files in *. cbn [fold_left fst snd].
  assert (D : (exists t', In (p, t') ws) \/ forall t', ~ In (p, t') ws).
  { clear. induction ws as [|(q, t) ws IH]; [right; intros t []|].
    destruct IH as [(t' & I)|N]; [left; exists t'; right; exact I|].
    destruct (path_eqb p q) eqn:E.
    - apply path_eqb_iff in E. subst. left. exists t. left. reflexivity.
    - right. intros t' [[= -> ->]|I]; [|exact (N _ I)]. rewrite (proj2 (path_eqb_iff p p) eq_refl) in E. discriminate E. }
  destruct D as [(t' & I')|N].
  - rewrite (IH (write_file d q t0)); [reflexivity| |].
    + rewrite <- (U t') by (right; exact I'). exact I'.
    + intros t2 I2. apply U. right. exact I2.
  - pose proof (write_files_none (write_file d q t0) ws p N) as W. unfold write_files in W. rewrite W.
    destruct I as [[= -> ->]|I]; [|destruct (N _ I)]. unfold write_file. rewrite (proj2 (path_eqb_iff p p) eq_refl). reflexivity.
Qed.
Lemma write_files_perm d ws ws' p : Permutation ws ws' -> (forall q t t', In (q, t) ws -> In (q, t') ws -> t = t') ->
  write_files d ws p = write_files d ws' p.
Proof.
  intros P U.
  assert (D : (exists t', In (p, t') ws) \/ forall t', ~ In (p, t') ws).
  { clear. induction ws as [|(q, t) ws IH]; [right; intros t []|].
    destruct IH as [(t' & I)|N]; [left; exists t'; right; exact I|].
    destruct (path_eqb p q) eqn:E.
    - apply path_eqb_iff in E. subst. left. exists t. left. reflexivity.
    - right. intros t' [[= -> ->]|I]; [|exact (N _ I)]. rewrite (proj2 (path_eqb_iff p p) eq_refl) in E. discriminate E. }
  destruct D as [(t & I)|N].
  - rewrite (write_files_some d ws p t), (write_files_some d ws' p t); auto.
    + eapply Permutation_in; [exact P|exact I].
    + intros t' I'. apply (U p); [|exact I]. eapply Permutation_in; [apply Permutation_sym, P|exact I'].
    + intros t' I'. apply (U p); [exact I'|exact I].
  - rewrite !write_files_none; auto. intros t I. apply (N t). eapply Permutation_in; [apply Permutation_sym, P|exact I].
Qed.

(** ** Rendering *)

Lemma with_suffix_ok stem suffix name : with_suffix stem suffix = Ok name -> name = append stem suffix.
Proof. unfold with_suffix. destruct (_ || _); [discriminate|]. intros H. apply ok_inj in H. auto. Qed.

Lemma render_targets_writes known d j platforms : forall ts ws,
  render_targets known d j platforms ts = (ws, None) ->
  (forall p t, In (p, t) ws -> exists platform suffix b, In platform platforms /\ In (platform, suffix, b) ts /\
     j_gen j suffix = Ok t /\ p = (j_dir j, append (j_stem j) suffix) /\ files_updated (d p) t b = true) /\
  (forall platform suffix b, In platform platforms -> In (platform, suffix, b) ts ->
     exists t, j_gen j suffix = Ok t /\
     (files_updated (d (j_dir j, append (j_stem j) suffix)) t b = true -> In ((j_dir j, append (j_stem j) suffix), t) ws)).
Proof.
  induction ts as [|((platform & suffix) & b) rest IH]; intros ws H.
  - cbn [render_targets] in H. injection H as <-. split; [intros p t []|intros platform suffix b _ []].
  - cbn [render_targets] in H. destruct (str_in platform platforms) eqn:Ep.
    + destruct (j_gen j suffix) as [text|e] eqn:Eg; [|discriminate H].
      destruct (with_suffix (j_stem j) suffix) as [name|e] eqn:Es; [|discriminate H].
      apply with_suffix_ok in Es. subst name.
      destruct (render_targets known d j platforms rest) as (ws' & e) eqn:Er. injection H as <- ->.
      destruct (IH _ eq_refl) as (I1 & I2). split.
      * intros p t I. apply in_app_or in I. destruct I as [I|I].
        -- destruct (files_updated _ _ _) eqn:Ef; [|destruct I]. destruct I as [[= <- <-]|[]].
           exists platform, suffix, b. split; [apply str_in_spec, Ep|]. split; [left; reflexivity|]. auto.
        -- destruct (I1 p t I) as (pl & sf & b' & A & B & C & D & E). exists pl, sf, b'.
           split; [exact A|]. split; [right; exact B|]. auto.
      * intros pl sf b' A [[= <- <- <-]|B].
        -- exists text. split; [exact Eg|]. intros ->. left. reflexivity.
        -- destruct (I2 pl sf b' A B) as (t & T1 & T2). exists t. split; [exact T1|]. intros X. apply in_or_app. right. exact (T2 X).
    + destruct (IH _ H) as (I1 & I2). split.
      * intros p t I. destruct (I1 p t I) as (pl & sf & b' & A & B & C & D & E). exists pl, sf, b'.
        split; [exact A|]. split; [right; exact B|]. auto.
      * intros pl sf b' A [[= <- <- <-]|B]; [|exact (I2 pl sf b' A B)].
        apply str_in_spec in A. congruence.
Qed.
Lemma render_file_writes known d j ws : render_file known d j = (ws, None) ->
  (forall p t, In (p, t) ws -> exists b, has_output j p t b /\ files_updated (d p) t b = true) /\
  (forall p t b, has_output j p t b -> files_updated (d p) t b = true -> In (p, t) ws).
Proof.
  unfold render_file. destruct (j_parse j) as [platforms|e] eqn:Ep; intros H.
  - apply render_targets_writes in H. destruct H as (H1 & H2). split.
    + intros p t I. destruct (H1 p t I) as (pl & sf & b & A & B & C & -> & E). exists b. split; [|exact E].
      exists platforms, pl, sf. auto 8.
    + intros p t b (pls & pl & sf & A & B & C & D & ->) F. rewrite Ep in A. apply ok_inj in A. subst pls.
      destruct (H2 pl sf b B C) as (t' & T1 & T2). rewrite D in T1. apply ok_inj in T1. subst t'. apply T2, F.
  - assert (E : ws = []) by (destruct (match e with Exn n => _ | _ => false end); [injection H; auto|discriminate H]).
    subst ws. split; [intros p t []|]. intros p t b (pls & pl & sf & A & _). rewrite Ep in A. discriminate A.
Qed.
Lemma render_all_writes known d : forall jobs ws, render_all known d jobs = Ok ws ->
  ws = concat (map (fun j => fst (render_file known d j)) jobs) /\ (forall j, In j jobs -> snd (render_file known d j) = None) /\
  (forall p t, In (p, t) ws -> exists j b, In j jobs /\ has_output j p t b /\ files_updated (d p) t b = true) /\
  (forall j p t b, In j jobs -> has_output j p t b -> files_updated (d p) t b = true -> In (p, t) ws).
Proof.
  induction jobs as [|j jobs IH]; intros ws H; cbn [render_all] in H.
  - apply ok_inj in H. subst. split; [reflexivity|]. split; [intros j []|]. split; [intros p t []|intros j p t b []].
  - destruct (render_file known d j) as (ws1 & [e|]) eqn:Er; [discriminate H|].
    destruct (render_all known d jobs) as [ws2|e]; [|discriminate H]. cbn [bind] in H. apply ok_inj in H. subst ws.
    destruct (IH _ eq_refl) as (I0 & I1 & I2 & I3). destruct (render_file_writes _ _ _ _ Er) as (R1 & R2).
    split; [cbn [map concat]; rewrite Er; cbn [fst]; rewrite <- I0; reflexivity|].
    split; [intros j' [<-|I]; [rewrite Er; reflexivity|apply I1, I]|]. split.
    + intros p t I. apply in_app_or in I. destruct I as [I|I].
      * destruct (R1 p t I) as (b & A & B). exists j, b. split; [left; reflexivity|]. auto.
      * destruct (I2 p t I) as (j' & b & A & B). exists j', b. split; [right; exact A|exact B].
    + intros j' p t b [<-|I] A B; apply in_or_app; [left; exact (R2 p t b A B)|right; exact (I3 j' p t b I A B)].
Qed.

(** Errors do not depend on what is on disk. *)
Lemma render_targets_error known d d' j platforms ts :
  snd (render_targets known d j platforms ts) = snd (render_targets known d' j platforms ts).
Proof.
  induction ts as [|((platform & suffix) & b) rest IH]; cbn [render_targets]; [reflexivity|].
  destruct (str_in platform platforms); [|exact IH]. destruct (j_gen j suffix); [|reflexivity].
  destruct (with_suffix (j_stem j) suffix); [|reflexivity].
  destruct (render_targets known d j platforms rest), (render_targets known d' j platforms rest). exact IH.
Qed.
Lemma render_file_error known d d' j : snd (render_file known d j) = snd (render_file known d' j).
Proof. unfold render_file. destruct (j_parse j); [apply render_targets_error|reflexivity]. Qed.
Lemma render_all_error known d d' jobs :
  (exists ws, render_all known d jobs = Ok ws) -> exists ws, render_all known d' jobs = Ok ws.
Proof.
  induction jobs as [|j jobs IH]; cbn [render_all]; intros (ws & H); [eauto|].
  pose proof (render_file_error known d d' j) as E.
  destruct (render_file known d j) as (w & [e|]); [discriminate H|].
  destruct (render_file known d' j) as (w' & e'). cbn [snd] in E. subst e'.
  destruct (render_all known d jobs) as [ws'|e]; [|discriminate H]. destruct (IH (ex_intro _ _ eq_refl)) as (ws2 & ->). cbn [bind]. eauto.
Qed.

(** ** A run *)

Lemma run_updates known d jobs d' : run_sequential known d jobs = Ok d' -> no_clash jobs -> plain_outputs jobs ->
  up_to_date jobs d' /\ only_outputs_changed jobs d d' /\
  (forall j p text c, In j jobs -> has_output j p text false -> d p = Some c -> same_but_tags (universal_newlines c) text -> d' p = d p).
Proof.
  intros H NC PO. unfold run_sequential in H. destruct (render_all known d jobs) as [ws|e] eqn:Er; [|discriminate H].
  cbn [bind] in H. apply ok_inj in H. subst d'. destruct (render_all_writes _ _ _ _ Er) as (_ & _ & W1 & W2).
  assert (U : forall p t t', In (p, t) ws -> In (p, t') ws -> t = t').
  { intros p t t' I I'. destruct (W1 _ _ I) as (j & b & A & B & _). destruct (W1 _ _ I') as (j' & b' & A' & B' & _).
    exact (proj1 (NC _ _ _ _ _ _ _ A A' B B')). }
  split; [|split].
  - intros j p text Ij O. destruct (files_updated (d p) text false) eqn:Ef.
    + pose proof (W2 _ _ _ _ Ij O Ef) as I. exists text. split.
      * apply write_files_some; [exact I|]. intros t' I'. exact (U _ _ _ I' I).
      * rewrite universal_plain; [apply same_but_tags_refl|]. exact (PO _ _ _ _ Ij O).
    + destruct (d p) as [c|] eqn:Ed; [|discriminate Ef]. exists c. split.
      * rewrite write_files_none; [exact Ed|]. intros t I. destruct (W1 _ _ I) as (j' & b & A & B & C).
        destruct (NC _ _ _ _ _ _ _ Ij A O B) as (<- & <-). rewrite Ed in C. congruence.
      * apply files_updated_text, Ef.
  - intros p N. destruct (in_dec (fun a b => match path_eqb a b as x return path_eqb a b = x -> _ with
        | true => fun E => left (proj1 (path_eqb_iff a b) E)
        | false => fun E => right (fun e => eq_ind false (fun x => if x then False else True) I true (eq_trans (eq_sym E) (proj2 (path_eqb_iff a b) e)))
        end eq_refl) p (map fst ws)) as [I|I].
    + apply in_map_iff in I. destruct I as ((q & t) & <- & I). destruct (W1 _ _ I) as (j & b & A & B & _). cbn [fst]. eauto.
    + destruct N. apply write_files_none. intros t J. apply I. apply (in_map fst) in J. exact J.
  - intros j p text c Ij O Ed S. apply write_files_none. intros t I. destruct (W1 _ _ I) as (j' & b & A & B & C).
    destruct (NC _ _ _ _ _ _ _ Ij A O B) as (<- & <-). rewrite Ed in C. apply files_updated_text in S. congruence.
Qed.
Lemma second_run known d jobs d' : run_sequential known d jobs = Ok d' -> no_clash jobs -> plain_outputs jobs ->
  (forall j p text, In j jobs -> ~ has_output j p text true) ->
  render_all known d' jobs = Ok [].
Proof.
  intros H NC PO NB. destruct (run_updates _ _ _ _ H NC PO) as (U & _ & _).
  assert (E : exists ws, render_all known d' jobs = Ok ws).
  { apply (render_all_error known d). unfold run_sequential in H. destruct (render_all known d jobs) as [ws|e]; [eauto|discriminate H]. }
  destruct E as (ws & E). rewrite E. destruct (render_all_writes _ _ _ _ E) as (_ & _ & W & _).
  destruct ws as [|(p & t) ws]; [reflexivity|]. exfalso.
  destruct (W p t (or_introl eq_refl)) as (j & b & A & B & C). destruct b; [exact (NB _ _ _ A B)|].
  destruct (U j p t A B) as (c & Ed & S). rewrite Ed in C. apply files_updated_text in S. congruence.
Qed.

(** ** Parallel runs *)

Lemma interleaving_perm {A} (ls : list (list A)) r : interleaving ls r -> Permutation (concat ls) r.
Proof.
  induction 1 as [ls F|l1 x l l2 r I IH].
  - assert (E : concat ls = []); [|rewrite E; constructor].
    induction F as [|l ls <- F IH]; [reflexivity|exact IH].
  - rewrite concat_app in *. cbn [concat] in *. eapply perm_trans; [|apply perm_skip, IH].
    cbn [app]. apply Permutation_sym, Permutation_middle.
Qed.
Lemma parallel_same known d jobs d' order : run_sequential known d jobs = Ok d' -> no_clash jobs ->
  interleaving (map (fun j => fst (render_file known d j)) jobs) order ->
  exists d2, run_parallel known d jobs order = Ok (d2, false) /\ forall p, d2 p = d' p.
Proof.
  intros H NC I. unfold run_sequential in H. destruct (render_all known d jobs) as [ws|e] eqn:Er; [|discriminate H].
  cbn [bind] in H. apply ok_inj in H. subst d'. destruct (render_all_writes _ _ _ _ Er) as (Ew & En & W1 & _).
  apply interleaving_perm in I. rewrite <- Ew in I.
  assert (E : flat_map (fun j => match snd (render_file known d j) with Some e => [e] | None => [] end) jobs = []).
  { clear - En. induction jobs as [|j jobs IH]; [reflexivity|]. cbn [flat_map]. rewrite En by (left; reflexivity).
    apply IH. intros j' I. apply En. right. exact I. }
  unfold run_parallel. rewrite E. cbn [filter some]. exists (write_files d order). split; [reflexivity|].
  intros p. symmetry. apply write_files_perm; [exact I|]. intros q t t' J J'.
  destruct (W1 _ _ J) as (j & b & A & B & _). destruct (W1 _ _ J') as (j' & b' & A' & B' & _).
  exact (proj1 (NC _ _ _ _ _ _ _ A A' B B')).
Qed.

(** ** Crashes *)

Lemma crash_outputs known d jobs ws d' : render_all known d jobs = Ok ws -> crash d ws d' -> only_outputs_changed jobs d d'.
Proof.
  intros H C p N. destruct (render_all_writes _ _ _ _ H) as (_ & _ & W & _).
  assert (X : exists t, In (p, t) ws).
  { destruct C as [ws1 ws2 ->|ws1 q a b ws2 ->].
    - destruct (in_dec (fun a b => match path_eqb a b as x return path_eqb a b = x -> _ with
        | true => fun E => left (proj1 (path_eqb_iff a b) E)
        | false => fun E => right (fun e => eq_ind false (fun x => if x then False else True) I true (eq_trans (eq_sym E) (proj2 (path_eqb_iff a b) e)))
        end eq_refl) p (map fst ws1)) as [I|I].
      + apply in_map_iff in I. destruct I as ((q & t) & <- & I). exists t. apply in_or_app. left. exact I.
      + destruct N. apply write_files_none. intros t J. apply I. apply (in_map fst) in J. exact J.
    - unfold write_file in N. destruct (path_eqb p q) eqn:E.
      + apply path_eqb_iff in E. subst q. exists (append a b). apply in_or_app. right. left. reflexivity.
      + destruct (in_dec (fun a b => match path_eqb a b as x return path_eqb a b = x -> _ with
        | true => fun E => left (proj1 (path_eqb_iff a b) E)
        | false => fun E => right (fun e => eq_ind false (fun x => if x then False else True) I true (eq_trans (eq_sym E) (proj2 (path_eqb_iff a b) e)))
        end eq_refl) p (map fst ws1)) as [I|I].
        * apply in_map_iff in I. destruct I as ((q' & t) & <- & I). exists t. apply in_or_app. left. exact I.
        * destruct N. apply write_files_none. intros t J. apply I. apply (in_map fst) in J. exact J. }
  destruct X as (t & I). destruct (W p t I) as (j & b & A & B & _). eauto.
Qed.
Lemma crash_repaired known d jobs ws d' : render_all known d jobs = Ok ws -> crash d ws d' ->
  no_clash jobs -> plain_outputs jobs ->
  exists d2, run_sequential known d' jobs = Ok d2 /\ up_to_date jobs d2 /\ only_outputs_changed jobs d d2.
Proof.
  intros H C NC PO. destruct (render_all_error known d d' jobs (ex_intro _ _ H)) as (ws' & E).
  exists (write_files d' ws').
  assert (R : run_sequential known d' jobs = Ok (write_files d' ws')) by (unfold run_sequential; rewrite E; reflexivity).
  split; [exact R|]. destruct (run_updates _ _ _ _ R NC PO) as (U & O & _). split; [exact U|].
  intros p N. pose proof (crash_outputs _ _ _ _ _ H C p) as Q.
  assert (D : {write_files d' ws' p = d' p} + {write_files d' ws' p <> d' p}) by (decide equality; apply string_dec).
  destruct D as [D|D]; [|exact (O p D)]. apply Q. congruence.
Qed.

(** ** A platform that can never be rendered *)

Lemma pcap_fails known d j platforms : j_parse j = Ok platforms -> In "pcap" platforms ->
  exists e, snd (render_file known d j) = Some e.
Proof.
  intros Ep I. unfold render_file. rewrite Ep.
  assert (G : forall ts, In ("pcap", "-accept.pcap", false) ts -> exists e, snd (render_targets known d j platforms ts) = Some e).
  { induction ts as [|((platform & suffix) & b) rest IH]; [intros []|]. intros J. cbn [render_targets].
    destruct J as [[= -> -> ->]|J].
    - rewrite (proj2 (str_in_spec _ _) I). destruct (j_gen j "-accept.pcap"); cbn; eauto.
    - destruct (str_in platform platforms); [|exact (IH J)].
      destruct (j_gen j suffix); [|cbn; eauto]. destruct (with_suffix (j_stem j) suffix); [|cbn; eauto].
      destruct (IH J) as (e & E). destruct (render_targets known d j platforms rest). cbn in *. eauto. }
  apply G. unfold targets. simpl. tauto.
Qed.
Lemma good_suffixes : forall platform suffix b stem, In (platform, suffix, b) targets -> platform <> "pcap" ->
  with_suffix stem suffix = Ok (append stem suffix).
Proof.
  intros platform suffix b stem I N. unfold with_suffix.
  assert (F : forallb (fun x => String.eqb (fst (fst x)) "pcap" ||
    negb ((negb (is_empty (snd (fst x))) && negb (starts_with "." (snd (fst x)))) || String.eqb (snd (fst x)) ".")) targets = true) by reflexivity.
  rewrite forallb_forall in F. specialize (F _ I). cbn [fst snd] in F. apply String.eqb_neq in N. rewrite N in F. cbn [orb] in F.
  apply negb_true_iff in F. rewrite F. reflexivity.
Qed.
Lemma render_succeeds known d j platforms : j_parse j = Ok platforms -> ~ In "pcap" platforms ->
  (forall platform suffix b, In platform platforms -> In (platform, suffix, b) targets -> exists text, j_gen j suffix = Ok text) ->
  snd (render_file known d j) = None.
Proof.
  intros Ep N G. unfold render_file. rewrite Ep.
  assert (H : forall ts, incl ts targets -> snd (render_targets known d j platforms ts) = None).
  { induction ts as [|((platform & suffix) & b) rest IH]; [reflexivity|]. intros J. cbn [render_targets].
    assert (R : snd (render_targets known d j platforms rest) = None) by (apply IH; intros x I; apply J; right; exact I).
    destruct (str_in platform platforms) eqn:Es; [|exact R]. apply str_in_spec in Es.
    destruct (G platform suffix b Es (J _ (or_introl eq_refl))) as (text & ->).
    rewrite (good_suffixes platform suffix b) by (try apply J; try (left; reflexivity); intros ->; contradiction).
    destruct (render_targets known d j platforms rest). exact R. }
  apply H, incl_refl.
Qed.

(** ** Configuration *)

Lemma assoc_app {A} k (a b : list (string * A)) : assoc k (a ++ b) = match assoc k a with Some v => Some v | None => assoc k b end.
Proof. induction a as [|(k', v) a IH]; [reflexivity|]. cbn [app assoc]. destruct (String.eqb k k'); [reflexivity|exact IH]. Qed.
Lemma assoc_filter {A} k (f : string -> bool) (m : list (string * A)) :
  assoc k (filter (fun kv => f (fst kv)) m) = if f k then assoc k m else None.
Proof.
  induction m as [|(k', v) m IH]; cbn [filter fst]; [destruct (f k); reflexivity|].
  destruct (f k') eqn:E; cbn [assoc]; destruct (String.eqb k k') eqn:Ek; try exact IH.
  - apply String.eqb_eq in Ek. subst k'. rewrite E. reflexivity.
  - apply String.eqb_eq in Ek. subst k'. rewrite E in IH. rewrite IH, E. reflexivity.
Qed.
Lemma drop_null_spec k m : assoc k (drop_null m) = match assoc k m with Some (Some v) => Some (Some v) | _ => None end.
Proof.
  unfold drop_null, lookup. rewrite (assoc_filter k (fun x => match assoc x m with Some (Some _) => true | _ => false end)).
  destruct (assoc k m) as [[v|]|]; reflexivity.
Qed.
Lemma merge_docs_spec k : forall docs acc m, merge_docs docs acc = Ok m ->
  assoc k m = match (match last_mention k docs with Some v => Some v | None => assoc k acc end) with Some (Some v) => Some (Some v) | _ => None end.
Proof.
  induction docs as [|[d|] docs IH]; intros acc m H; cbn [merge_docs] in H.
  - apply ok_inj in H. subst m. cbn [last_mention]. apply drop_null_spec.
  - rewrite (IH _ _ H). cbn [last_mention]. destruct (last_mention k docs); [reflexivity|]. unfold update. rewrite assoc_app.
    destruct (assoc k d); reflexivity.
  - discriminate H.
Qed.
Lemma generate_configs_spec defaults flags docs m k : generate_configs defaults flags docs = Ok m ->
  assoc k m = match last_mention k docs with
              | Some (Some v) => Some (Some v)
              | _ => match assoc k flags with Some (Some v) => Some (Some v) | _ => assoc k defaults end
              end.
Proof.
  unfold generate_configs. intros H.
  destruct (if some docs then merge_docs docs [] else Ok []) as [files|e] eqn:Em; [|discriminate H].
  cbn [bind] in H. apply ok_inj in H. subst m. unfold update. rewrite !assoc_app, drop_null_spec.
  assert (E : assoc k files = match last_mention k docs with Some (Some v) => Some (Some v) | _ => None end).
  { destruct docs as [|d0 docs0].
    - apply ok_inj in Em. subst files. reflexivity.
    - cbn [some] in Em. rewrite (merge_docs_spec k _ _ _ Em). destruct (last_mention k (d0 :: docs0)) as [[v|]|]; reflexivity. }
  rewrite E. destruct (last_mention k docs) as [[v|]|]; [reflexivity| |]; destruct (assoc k flags) as [[w|]|]; reflexivity.
Qed.
Lemma generate_configs_total defaults flags docs : (forall m, In m docs -> m <> None) ->
  exists m, generate_configs defaults flags docs = Ok m.
Proof.
  intros H. unfold generate_configs.
  assert (G : forall acc, exists m, merge_docs docs acc = Ok m).
  { induction docs as [|[d|] docs IH]; intros acc; cbn [merge_docs]; [eauto| |].
    - apply IH. intros m I. apply H. right. exact I.
    - destruct (H None (or_introl eq_refl) eq_refl). }
  destruct docs as [|d docs]; cbn [some bind]; [eauto|]. destruct (G []) as (m & ->). cbn [bind]. eauto.
Qed.
