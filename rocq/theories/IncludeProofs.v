From Coq Require Import Lia.
From Verif Require Import SpecInclude BaseFacts PyStrFacts.
Local Open Scope list_scope.
Local Open Scope string_scope.

(** ** Components *)
Definition name_ok (c : string) : Prop := c <> "" /\ c <> "." /\ c <> ".." /\ has_char slash c = false.

Lemma split_no_sep s : forall c, In c (split_char slash s) -> has_char slash c = false.
Proof.
  induction s as [|d s IH]; cbn [split_char].
  - intros c [<-|[]]. reflexivity.
  - destruct (Ascii.eqb d slash) eqn:E.
    + intros c [<-|H]; [reflexivity|auto].
    + destruct (split_char slash s) as [|w ws] eqn:S.
      * intros c [<-|[]]. cbn. rewrite E. reflexivity.
      * intros c [<-|H]; [|apply IH; right; assumption]. cbn. rewrite E. apply IH. left. reflexivity.
Qed.

(** The reversed stack of normpath and [follow]. *)
Lemma removelast_rev {A} (l : list A) : removelast (rev l) = rev (tl l).
Proof. destruct l as [|a l]; [reflexivity|]. cbn [rev tl]. apply removelast_last. Qed.
Lemma norm_follow comps : forall new, (forall c, In c comps -> has_char slash c = false) -> Forall name_ok new ->
  rev (norm_loop true new comps) = follow (rev new) comps /\ Forall name_ok (norm_loop true new comps).
Proof.
  induction comps as [|c cs IH]; intros new Hc Hn; cbn [norm_loop follow]; [auto|].
  assert (Hcs : forall d, In d cs -> has_char slash d = false) by (intros; apply Hc; right; assumption).
  destruct (string_dec c "") as [->|N1]; [cbn [is_empty orb]; apply IH; assumption|].
  assert (is_empty c = false) as -> by (destruct c; [congruence|reflexivity]). cbn [orb].
  destruct (string_dec c ".") as [->|N2]; [cbn [String.eqb]; apply IH; assumption|].
  apply String.eqb_neq in N2 as E2. rewrite E2. cbn [negb andb].
  destruct (string_dec c "..") as [->|N3].
  - rewrite String.eqb_refl. cbn [negb orb].
    assert (match new with [] => false | x :: _ => x =? ".." end = false) as ->.
    { destruct new as [|x new]; [reflexivity|]. inversion Hn; subst. apply String.eqb_neq, H1. }
    rewrite removelast_rev. apply IH; [assumption|]. destruct new; [constructor|]. inversion Hn; assumption.
  - apply String.eqb_neq in N3 as E3. rewrite E3. cbn [negb orb].
    destruct (IH (c :: new) Hcs) as [E F].
    + constructor; [|assumption]. repeat (split; [assumption|]). apply Hc. left. reflexivity.
    + split; [|assumption]. rewrite E. reflexivity.
Qed.

Lemma split_app_sep a b : has_char slash a = false -> split_char slash (a ++ String slash b) = a :: split_char slash b.
Proof. exact (split_char_app slash a b). Qed.
Lemma split_join l : Forall name_ok l -> l <> [] -> split_char slash (join "/" l) = l.
Proof.
  induction l as [|a l IH]; intros F N; [congruence|]. inversion F; subst. destruct H1 as (_ & _ & _ & H1).
  destruct l as [|b l]; [cbn [join]; apply split_char_none, H1|].
  change (join "/" (a :: b :: l)) with (a ++ String slash (join "/" (b :: l))). rewrite split_app_sep by assumption.
  f_equal. apply IH; [assumption|discriminate].
Qed.
Definition named (c : string) : bool := negb (is_empty c) && negb (c =? ".").
Lemma named_ok c : name_ok c -> named c = true.
Proof.
  intros (N1 & N2 & _). unfold named. apply String.eqb_neq in N2 as ->. destruct c; [congruence|reflexivity].
Qed.
Lemma filter_named l : Forall name_ok l -> filter named l = l.
Proof. induction 1 as [|c l H _ IH]; cbn; [reflexivity|]. rewrite (named_ok c H), IH. reflexivity. Qed.
Lemma comps_join l : Forall name_ok l -> filter named (split_char slash (join "/" l)) = l.
Proof.
  intros F. destruct l as [|a l]; [reflexivity|]. rewrite split_join by (assumption || discriminate). apply filter_named, F.
Qed.

Lemma is_abs_cons p : is_abs p = true -> exists q, p = String slash q.
Proof.
  unfold is_abs, starts_with. intros H. apply prefix_app in H. destruct H as (q & ->). exists q. reflexivity.
Qed.

Lemma abs_slash q : is_abs (String slash q) = true.
Proof. unfold is_abs, starts_with. apply prefix_app. exists q. reflexivity. Qed.

Lemma normpath_abs p : is_abs p = true ->
  is_abs (normpath p) = true /\ path_comps (normpath p) = follow [] (split_char slash p) /\
  Forall name_ok (follow [] (split_char slash p)).
Proof.
  intros A. destruct (is_abs_cons p A) as (q & E).
  destruct (norm_follow (split_char slash p) [] (split_no_sep p) (Forall_nil _)) as [N F].
  cbn [rev] in N. rewrite <- N.
  assert (G : Forall name_ok (rev (norm_loop true [] (split_char slash p)))) by (apply Forall_rev, F).
  assert (K : forall init, init = "//" \/ init = "/" ->
    (let r := init ++ join "/" (rev (norm_loop (negb (is_empty init)) [] (split_char slash p))) in
     is_abs (if is_empty r then "." else r) = true /\
     path_comps (if is_empty r then "." else r) = rev (norm_loop true [] (split_char slash p)))).
  { intros init H. assert (negb (is_empty init) = true) as -> by (destruct H as [->| ->]; reflexivity).
    cbv zeta. assert (is_empty (init ++ join "/" (rev (norm_loop true [] (split_char slash p)))) = false) as ->
      by (destruct H as [->| ->]; reflexivity).
    split; [destruct H as [->| ->]; apply abs_slash|]. unfold path_comps. fold named.
    destruct H as [->| ->]; cbn [append split_char]; cbn [Ascii.eqb slash Bool.eqb]; cbn [filter named is_empty negb andb];
      apply comps_join, G. }
  assert (W : normpath p = let init := if starts_with "//" p && negb (starts_with "///" p) then "//" else "/" in
     let r := init ++ join "/" (rev (norm_loop (negb (is_empty init)) [] (split_char slash p))) in if is_empty r then "." else r).
  { unfold normpath. rewrite A. subst p. reflexivity. }
  rewrite W. cbv zeta. destruct (K (if starts_with "//" p && negb (starts_with "///" p) then "//" else "/")) as [K1 K2].
  { destruct (starts_with "//" p && negb (starts_with "///" p)); auto. }
  split; [exact K1|]. split; [exact K2|exact G].
Qed.

Lemma follow_app a b : forall dir, follow dir (a ++ b)%list = follow (follow dir a) b.
Proof. induction a as [|c a IH]; intros dir; cbn; [reflexivity|]. apply IH. Qed.
Lemma split_app_mid a b : split_char slash (a ++ String slash b) = (split_char slash a ++ split_char slash b)%list.
Proof.
  induction a as [|c a IH]; [reflexivity|]. cbn [append split_char]. rewrite IH. destruct (Ascii.eqb c slash); [reflexivity|].
  destruct (split_char slash a) as [|w ws] eqn:E; [destruct (split_char_nonnil slash a E)|]. reflexivity.
Qed.
Lemma ends_slash a : ends_with_slash a = true -> exists b, a = b ++ "/".
Proof.
  induction a as [|c a IH]; [discriminate|]. cbn [ends_with_slash]. destruct a as [|d a].
  - intros E. apply Ascii.eqb_eq in E. exists "". subst. reflexivity.
  - intros E. destruct (IH E) as (b & ->). exists (String c b). reflexivity.
Qed.
Lemma is_abs_app a b : is_abs a = true -> is_abs (a ++ b) = true.
Proof. intros H. destruct (is_abs_cons a H) as (q & ->). apply abs_slash. Qed.
Lemma join_follow cwd p : is_abs cwd = true -> is_abs p = false ->
  is_abs (path_join cwd p) = true /\
  follow [] (split_char slash (path_join cwd p)) = follow (follow [] (split_char slash cwd)) (split_char slash p).
Proof.
  intros A B. unfold path_join. rewrite B. destruct (is_abs_cons cwd A) as (q & E).
  assert (is_empty cwd = false) as -> by (subst; reflexivity). cbn [orb].
  destruct (ends_with_slash cwd) eqn:S.
  - split; [apply is_abs_app, A|]. destruct (ends_slash cwd S) as (b & ->).
    change "/" with (String slash ""). rewrite str_app_assoc. change (String slash "" ++ p) with (String slash p).
    rewrite !split_app_mid, !follow_app. cbn [split_char follow].
    destruct (string_dec "" ""); [reflexivity|congruence].
  - split; [apply is_abs_app, A|]. change ("/" ++ p) with (String slash p). rewrite split_app_mid, follow_app. reflexivity.
Qed.

Lemma abspath_spec cwd p : is_abs cwd = true ->
  is_abs (abspath cwd p) = true /\ path_comps (abspath cwd p) = place cwd p /\ Forall name_ok (place cwd p).
Proof.
  intros A. unfold abspath, place. change "/"%char with slash. destruct (is_abs p) eqn:B.
  - apply normpath_abs, B.
  - destruct (join_follow cwd p A B) as [C D]. destruct (normpath_abs _ C) as (X & Y & Z). rewrite D in Y, Z. auto.
Qed.

(** ** commonpath *)
Lemma str_leb_refl_false x y : x <> y -> str_leb x y = true -> str_leb y x = false.
Proof.
  intros N H. destruct (str_leb y x) eqn:E; [|reflexivity]. destruct N. apply str_leb_antisym; assumption.
Qed.
Lemma common_ok a : forall b, strs_leb a b = true -> exists r, common a b = Ok r /\
  (exists a' b', a = (r ++ a')%list /\ b = (r ++ b')%list /\ match a', b' with x :: _, y :: _ => x <> y | _, _ => True end).
Proof.
  induction a as [|x a IH]; intros b H.
  - exists []. split; [destruct b; reflexivity|]. exists [], b. auto.
  - destruct b as [|y b]; [discriminate|]. cbn [strs_leb common] in *. destruct (x =? y) eqn:E.
    + apply String.eqb_eq in E. subst. destruct (IH b H) as (r & -> & a' & b' & -> & -> & N). exists (y :: r).
      split; [reflexivity|]. exists a', b'. auto.
    + apply String.eqb_neq in E. exists []. split; [reflexivity|]. exists (x :: a), (y :: b). auto.
Qed.
Lemma strs_total a : forall b, strs_leb a b = false -> strs_leb b a = true.
Proof.
  induction a as [|x a IH]; intros [|y b] H; try discriminate; [reflexivity|]. cbn [strs_leb] in *.
  rewrite (String.eqb_sym y x). destruct (x =? y) eqn:E; [auto|].
  destruct (str_leb_total x y) as [T|T]; [congruence|assumption].
Qed.
Lemma prefix_split {A} (r p a' p' : list A) (c : list A) :
  c = (r ++ a')%list -> p = (r ++ p')%list ->
  match p', a' with x :: _, y :: _ => x <> y | _, _ => True end ->
  (r = p <-> exists rest, c = (p ++ rest)%list).
Proof.
  intros -> -> N. split.
  - intros E. assert (p' = []). { apply (f_equal (@List.length A)) in E. rewrite app_length in E. destruct p'; [reflexivity|cbn in E; lia]. }
    subst. rewrite app_nil_r. eauto.
  - intros (rest & E). rewrite <- app_assoc in E. apply app_inv_head in E. destruct p' as [|x p']; [rewrite app_nil_r; reflexivity|].
    exfalso. subst a'. cbn in N. congruence.
Qed.
Lemma join_inj l k : Forall name_ok l -> Forall name_ok k -> join "/" l = join "/" k -> l = k.
Proof. intros F G E. rewrite <- (comps_join l F), <- (comps_join k G), E. reflexivity. Qed.

Theorem sub_directory_spec cwd child parent : is_abs cwd = true ->
  exists b, sub_directory cwd child parent = Ok b /\ (b = true <-> inside cwd parent child).
Proof.
  intros A. destruct (abspath_spec cwd child A) as (C1 & C2 & C3). destruct (abspath_spec cwd parent A) as (P1 & P2 & P3).
  unfold sub_directory, commonpath2, commonpath1. rewrite C1, P1, C2, P2. cbn [Bool.eqb].
  assert (X : exists r, (if strs_leb (place cwd parent) (place cwd child) then common (place cwd parent) (place cwd child)
       else common (place cwd child) (place cwd parent)) = Ok r /\
     exists c' p', place cwd child = (r ++ c')%list /\ place cwd parent = (r ++ p')%list /\
       match p', c' with x :: _, y :: _ => x <> y | _, _ => True end).
  { destruct (strs_leb (place cwd parent) (place cwd child)) eqn:E.
    - destruct (common_ok _ _ E) as (r & -> & p' & c' & Hp & Hc & N). exists r. split; [reflexivity|]. exists c', p'. auto.
    - destruct (common_ok _ _ (strs_total _ _ E)) as (r & -> & c' & p' & Hc & Hp & N). exists r. split; [reflexivity|].
      exists c', p'. split; [assumption|]. split; [assumption|]. destruct p', c'; auto. }
  destruct X as (r & -> & c' & p' & Hc & Hp & N). cbn [bind]. eexists. split; [reflexivity|].
  rewrite String.eqb_eq. unfold inside. rewrite <- (prefix_split r _ c' p' _ Hc Hp N).
  assert (R : Forall name_ok r) by (rewrite Hp in P3; apply Forall_app in P3; tauto).
  split; [|congruence]. intros E. apply join_inj; [assumption|assumption|]. injection E. auto.
Qed.

(** ** Expansion *)
Section Expansion.
  Context (fs : string -> file) (cwd base : string) (Abs : is_abs cwd = true).
  Notation pre := (preprocess fs cwd base).
  Notation lines := (pre_lines fs cwd base).

  Lemma lines_inside rec : (forall d p, In p (fst (rec d)) -> inside cwd base p) ->
    forall ls p, In p (fst (lines rec ls)) -> inside cwd base p.
  Proof.
    intros R. induction ls as [|l ls IH]; intros p; cbn [pre_lines]; [intros []|].
    destruct (include_target l) as [f|]; [|cbn [fst]; auto].
    destruct (sub_directory_spec cwd (path_join base f) base Abs) as (b & -> & B).
    destruct b; [|intros []]. specialize (proj1 B eq_refl) as I.
    destruct (read_file fs _) as [data|]; [|intros [<-|[]]; assumption].
    destruct (snd (rec data)) as [inc|]; cbn [fst].
    - intros [<-|H]; [assumption|]. apply in_app_or in H. destruct H as [H|H]; [eapply R; exact H|auto].
    - intros [<-|H]; [assumption|]. eapply R; exact H.
  Qed.
  Lemma reads_inside depth : forall data p, In p (fst (pre depth data)) -> inside cwd base p.
  Proof.
    induction depth as [|d IH]; intros data p; cbn [preprocess]; [intros []|]. apply lines_inside. exact IH.
  Qed.

  Lemma lines_expand rec depth : (forall d out, snd (rec d) = Ok out <-> exists k, S k = depth /\ expands fs cwd base k d out) ->
    forall ls out, snd (lines rec ls) = Ok out <-> expands_lines fs cwd base depth ls out.
  Proof.
    intros R. induction ls as [|l ls IH]; intros out; cbn [pre_lines].
    - cbn [snd]. split; [intros [= <-]; constructor|]. intros H. inversion H. reflexivity.
    - destruct (include_target l) as [f|] eqn:T.
      + destruct (sub_directory_spec cwd (path_join base f) base Abs) as (b & -> & B).
        assert (Inv : expands_lines fs cwd base depth (l :: ls) out -> exists k text inc out', depth = S k /\ out = (inc ++ out')%list /\
           inside cwd base (path_join base f) /\ fs (path_join base f) = Text text /\ expands fs cwd base k text inc /\
           expands_lines fs cwd base depth ls out').
        { intros H. inversion H; subst.
          - destruct (H3 f T).
          - unfold includes in *. assert (f0 = f) by congruence. subst. exists depth0, text, inc, out0. auto 8. }
        destruct b.
        * specialize (proj1 B eq_refl) as I. unfold read_file. destruct (fs (path_join base f)) as [| |text] eqn:E.
          -- split; [discriminate|]. intros H. destruct (Inv H) as (? & ? & ? & ? & _ & _ & _ & Ht & _). congruence.
          -- split; [discriminate|]. intros H. destruct (Inv H) as (? & ? & ? & ? & _ & _ & _ & Ht & _). congruence.
          -- destruct (snd (rec text)) as [inc|] eqn:Er.
             ++ cbn [snd]. destruct (snd (lines rec ls)) as [o|] eqn:El; cbn [bind].
                ** split.
                   --- intros [= <-]. destruct (proj1 (R text inc) Er) as (k & <- & Hk).
                       apply (EInclude fs cwd base k l f text); [exact T|exact I|exact E|exact Hk|].
                       apply IH. reflexivity.
                   --- intros H. destruct (Inv H) as (k & tx & inc' & o' & -> & -> & _ & Ht & Hk & Hl).
                       assert (tx = text) by congruence. subst tx.
                       assert (Ei : snd (rec text) = Ok inc') by (apply R; eauto).
                       assert (Eo : Ok o = Ok o') by (apply IH; assumption). congruence.
                ** split; [discriminate|]. intros H. destruct (Inv H) as (k & tx & inc' & o' & -> & -> & _ & Ht & Hk & Hl).
                   apply IH in Hl. discriminate.
             ++ cbn [snd]. split; [discriminate|]. intros H. destruct (Inv H) as (k & tx & inc' & o' & -> & -> & _ & Ht & Hk & Hl).
                assert (tx = text) by congruence. subst tx. assert (Ei : snd (rec text) = Ok inc') by (apply R; eauto). congruence.
        * split; [discriminate|]. intros H. destruct (Inv H) as (? & ? & ? & ? & _ & _ & Hi & _). apply B in Hi. discriminate.
      + cbn [snd]. destruct (snd (lines rec ls)) as [o|] eqn:El; cbn [bind].
        * split.
          -- intros [= <-]. constructor; [intros f Hf; unfold includes in Hf; congruence|]. apply IH. reflexivity.
          -- intros H. inversion H; subst; [|unfold includes in *; congruence]. apply IH in H5. congruence.
        * split; [discriminate|]. intros H. inversion H; subst; [|unfold includes in *; congruence]. apply IH in H5. discriminate.
  Qed.
  Lemma preprocess_expands depth : forall data out,
    snd (pre depth data) = Ok out <-> exists k, S k = depth /\ expands fs cwd base k data out.
  Proof.
    induction depth as [|d IH]; intros data out.
    - cbn. split; [discriminate|]. intros (k & F & _). discriminate.
    - cbn [preprocess]. rewrite (lines_expand (pre d) d IH). split.
      + intros H. exists d. split; [reflexivity|]. constructor. exact H.
      + intros (k & [= ->] & H). inversion H; subst. assumption.
  Qed.

  Lemma lines_errors rec (P : exn -> Prop) : P (Exn "InvalidIncludeDirectoryError") -> P (Exn "FileNotFoundError") ->
    P (Exn "FileReadError") -> (forall d e, snd (rec d) = Raise e -> P e) ->
    forall ls e, snd (lines rec ls) = Raise e -> P e.
  Proof.
    intros P1 P2 P3 R. induction ls as [|l ls IH]; intros e; cbn [pre_lines]; [discriminate|].
    destruct (include_target l) as [f|].
    - destruct (sub_directory_spec cwd (path_join base f) base Abs) as (b & -> & _). destruct b.
      + unfold read_file. destruct (fs _) as [| |text]; [intros [= <-]; assumption..|].
        destruct (snd (rec text)) as [inc|e'] eqn:E; cbn [snd].
        * destruct (snd (lines rec ls)); cbn [bind]; [discriminate|]. intros [= <-]. auto.
        * intros [= <-]. eauto.
      + intros [= <-]. assumption.
    - cbn [snd]. destruct (snd (lines rec ls)); cbn [bind]; [discriminate|]. intros [= <-]. auto.
  Qed.
  Lemma preprocess_errors depth : forall data e, snd (pre depth data) = Raise e ->
    In e (map Exn ["RecursionTooDeepError"; "InvalidIncludeDirectoryError"; "FileNotFoundError"; "FileReadError"]).
  Proof.
    induction depth as [|d IH]; intros data e; cbn [preprocess].
    - intros [= <-]. left. reflexivity.
    - apply (lines_errors (pre d) (fun e => In e (map Exn ["RecursionTooDeepError"; "InvalidIncludeDirectoryError"; "FileNotFoundError"; "FileReadError"])));
        cbn [map]; [right; left|right; right; left|right; right; right; left|exact IH]; reflexivity.
  Qed.
End Expansion.

(** Only files inside the base directory matter. *)
Lemma preprocess_inside_only fs fs' cwd base depth : is_abs cwd = true ->
  (forall p, inside cwd base p -> fs p = fs' p) ->
  forall data, preprocess fs cwd base depth data = preprocess fs' cwd base depth data.
Proof.
  intros A H. induction depth as [|d IH]; intros data; cbn [preprocess]; [reflexivity|].
  generalize (map rstrip (splitlines data)). intros ls. induction ls as [|l ls IHl]; cbn [pre_lines]; [reflexivity|].
  destruct (include_target l) as [f|]; [|rewrite IHl; reflexivity].
  destruct (sub_directory_spec cwd (path_join base f) base A) as (b & -> & B). destruct b; [|reflexivity].
  unfold read_file. rewrite <- (H _ (proj1 B eq_refl)). destruct (fs (path_join base f)) as [| |text]; [reflexivity..|].
  rewrite <- IH. destruct (snd (preprocess fs cwd base d text)); [|reflexivity]. rewrite IHl. reflexivity.
Qed.

(** Going up a level of nesting never hurts. *)
Scheme expands_ind2 := Induction for expands Sort Prop
  with expands_lines_ind2 := Induction for expands_lines Sort Prop.
Lemma expands_mono fs cwd base : forall k data out, expands fs cwd base k data out ->
  forall j, (k <= j)%nat -> expands fs cwd base j data out.
Proof.
  apply (expands_ind2 fs cwd base (fun k data out _ => forall j, (k <= j)%nat -> expands fs cwd base j data out)
           (fun k ls out _ => forall j, (k <= j)%nat -> expands_lines fs cwd base j ls out)).
  - intros depth data out _ IH j Hj. constructor. auto.
  - intros. constructor.
  - intros depth line rest out N _ IH j Hj. constructor; auto.
  - intros depth line f text inc rest out I Hin Ht _ IH1 _ IH2 j Hj. destruct j as [|j]; [lia|].
    econstructor; eauto. apply IH1. lia.
Qed.

(** ** Cycles *)
Lemma expands_pulls fs cwd base k t out t' : expands fs cwd base k t out -> pulls_in fs base t t' ->
  exists k' out', k = S k' /\ expands fs cwd base k' t' out'.
Proof.
  intros H (line & f & Hl & Hi & Hf). inversion H; subst. clear H.
  induction H0; [destruct Hl|..].
  - destruct Hl as [<-|Hl]; [destruct (H f Hi)|auto].
  - destruct Hl as [<-|Hl]; [|auto]. unfold includes in *. assert (f0 = f) by congruence. subst.
    assert (text = t') by congruence. subst. eauto.
Qed.
Lemma expands_chain fs cwd base t t' : chain fs base t t' -> forall k out, expands fs cwd base k t out ->
  exists k' out', (k' < k)%nat /\ expands fs cwd base k' t' out'.
Proof.
  induction 1 as [t t' H|t t' t'' H _ IH]; intros k out E.
  - destruct (expands_pulls _ _ _ _ _ _ _ E H) as (k' & o & -> & E'). exists k', o. split; [lia|assumption].
  - destruct (expands_pulls _ _ _ _ _ _ _ E H) as (k' & o & -> & E'). destruct (IH _ _ E') as (k2 & o2 & L & E2).
    exists k2, o2. split; [lia|assumption].
Qed.
Lemma cycle_no_expansion fs cwd base t : chain fs base t t -> forall k out, ~ expands fs cwd base k t out.
Proof.
  intros C k. induction k as [k IH] using (well_founded_induction Wf_nat.lt_wf). intros out E.
  destruct (expands_chain _ _ _ _ _ C _ _ E) as (k' & o & L & E'). exact (IH k' L o E').
Qed.
Lemma leads_to_cycle fs cwd base t u : chain fs base t u -> chain fs base u u -> forall k out, ~ expands fs cwd base k t out.
Proof.
  intros C D k out E. destruct (expands_chain _ _ _ _ _ C _ _ E) as (k' & o & _ & E'). exact (cycle_no_expansion _ _ _ _ D _ _ E').
Qed.

(** ** Include lines *)
Definition no_quote (s : string) : Prop := forall_char (fun c => negb (is_quote c)) s = true.
Lemma lstrip_quotes_none s : no_quote s -> lstrip_quotes s = s.
Proof. destruct s as [|c s]; [reflexivity|]. unfold no_quote. cbn. destruct (is_quote c); [discriminate|reflexivity]. Qed.
Lemma rstrip_quotes_none s : no_quote s -> rstrip_quotes s = s.
Proof.
  unfold no_quote. induction s as [|c s IH]; [reflexivity|]. cbn. intros H. apply andb_true_iff in H. destruct H as [H1 H2].
  rewrite (IH H2). destruct (is_quote c); [discriminate|reflexivity].
Qed.
Lemma rstrip_quotes_last s q : no_quote s -> is_quote q = true -> rstrip_quotes (s ++ String q "") = s.
Proof.
  unfold no_quote. induction s as [|c s IH]; cbn; intros H Q; [rewrite Q; reflexivity|].
  apply andb_true_iff in H. destruct H as [H1 H2]. rewrite (IH H2 Q). destruct (is_quote c); [discriminate|reflexivity].
Qed.
Lemma include_line name : no_ws name -> name <> "" -> no_quote name ->
  includes ("#include " ++ name) name /\ forall q, is_quote q = true -> includes ("#include " ++ String q (name ++ String q "")) name.
Proof.
  intros W N Q. unfold includes, include_target. split.
  - change ("#include " ++ name) with ("#include" ++ String " " name). rewrite split_ws_sep by (reflexivity || discriminate).
    rewrite split_ws_word by assumption. rewrite String.eqb_refl. unfold strip_quotes.
    rewrite lstrip_quotes_none, rstrip_quotes_none; auto.
  - intros q Hq. change ("#include " ++ String q (name ++ String q "")) with ("#include" ++ String " " (String q (name ++ String q ""))).
    rewrite split_ws_sep by (reflexivity || discriminate).
    assert (Wq : is_ws q = false) by (destruct q as [[] [] [] [] [] [] [] []]; try discriminate Hq; reflexivity).
    rewrite split_ws_word; [|unfold no_ws; cbn; rewrite Wq, forall_char_app; unfold no_ws in W; rewrite W; cbn; rewrite Wq; reflexivity|discriminate].
    rewrite String.eqb_refl. unfold strip_quotes. cbn [lstrip_quotes]. rewrite Hq.
    destruct name as [|c name]; [congruence|]. assert (is_quote c = false).
    { unfold no_quote in Q. cbn in Q. destruct (is_quote c); [discriminate|reflexivity]. }
    cbn [append lstrip_quotes]. rewrite H. change (String c (name ++ String q "")) with (String c name ++ String q "").
    rewrite rstrip_quotes_last; auto.
Qed.
