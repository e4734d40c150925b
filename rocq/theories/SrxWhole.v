(** Terms and headers of an SRX policy, and the whole configuration. *)
From Coq Require Import Lia ZifyBool ZifyNat.
From Verif Require Import SpecSrx BaseFacts TextProofs PyStrFacts PortProofs PolicyProofs GenProofs GenProofs2 CiscoProofs CiscoDup CiscoAcl CiscoGroupAcl JuniperText JuniperProofs JuniperTerm JuniperFilter GceDecide SonicPolicy SrxText SrxRead SrxBook SrxBookText SrxApps SrxTerm SrxPolicy.
Local Open Scope string_scope.
Local Open Scope list_scope.
Local Open Scope Z_scope.

(** ** States *)
Record state_ok (vs : list ver) (N : string -> Prop) (D : string -> string -> ipaddr -> Prop) (st : list (string * list (string * list net)) * list srx_app) : Prop := {
  st_book : book_ok vs N D (fst st);
  st_zones : forall z, In z (map fst (fst st)) -> plain_word z;
  st_names : NoDup (map ap_name (snd st));
  st_good : forall a, In a (snd st) -> app_good a }.
Definition grows (a b : list (string * list (string * list net)) * list srx_app) : Prop :=
  (forall z n, book_entry (fst a) z n <> None -> book_entry (fst b) z n <> None) /\ forall x, In x (snd a) -> In x (snd b).
Lemma grows_refl a : grows a a. Proof. split; auto. Qed.
Lemma grows_trans a b c : grows a b -> grows b c -> grows a c.
Proof. intros (A1 & A2) (B1 & B2). split; auto. Qed.
Lemma build_zones z : forall l b j, In j (map fst (fold_left (build_address_book z) l b)) -> j = z \/ In j (map fst b).
Proof.
  induction l as [|a l IH]; intros b j I; [auto|]. cbn [fold_left] in I. apply IH in I. destruct I as [I|I]; [auto|]. unfold build_address_book in I. apply update_keys in I. exact I.
Qed.

(** ** Applications that are the same *)
Lemma list_eqb_spec {A} (eqb : A -> A -> bool) : (forall x y, eqb x y = true -> x = y) -> forall a b, list_eqb eqb a b = true -> a = b.
Proof.
  intros H. induction a as [|x a IH]; intros [|y b] E; try discriminate E; [reflexivity|]. cbn [list_eqb] in E. apply andb_true_iff in E. destruct E as (E1 & E2).
  rewrite (H x y E1), (IH b E2). reflexivity.
Qed.
Lemma same_app_spec a b : same_app a b = true -> ap_sport a = ap_sport b /\ ap_dport a = ap_dport b /\ ap_protocol a = ap_protocol b /\ ap_types a = ap_types b.
Proof.
  unfold same_app. intros H. rewrite !andb_true_iff in H. destruct H as (((A & B) & C) & E).
  split; [apply (list_eqb_spec String.eqb); [intros x y; apply String.eqb_eq|exact A]|].
  split; [apply (list_eqb_spec String.eqb); [intros x y; apply String.eqb_eq|exact B]|].
  split; [apply (list_eqb_spec pval_eqb); [|exact C]|apply (list_eqb_spec Z.eqb); [intros x y; apply Z.eqb_eq|exact E]].
  intros [x|x] [y|y] X; try discriminate X; cbn in X; f_equal; [apply String.eqb_eq, X|lia].
Qed.
Lemma same_conds a b : same_app a b = true -> conds a = conds b /\ app_content a = app_content b.
Proof.
  intros H. apply same_app_spec in H. destruct H as (A & B & C & E). unfold conds, combos, icmp_text, app_content. rewrite A, B, C, E. split; reflexivity.
Qed.
Lemma find_app_some new : forall apps n, find_app new apps = Ok (Some n) -> exists a, In a apps /\ ap_name a = n /\ same_app a new = true.
Proof.
  induction apps as [|a apps IH]; intros n H; [discriminate H|]. cbn [find_app] in H. destruct (same_app a new) eqn:S.
  - apply ok_inj in H. exists a. split; [left; reflexivity|]. split; [congruence|exact S].
  - destruct (String.eqb (ap_name new) (ap_name a)); [discriminate H|]. destruct (IH n H) as (b & I & E). exists b. split; [right; exact I|exact E].
Qed.
Lemma find_app_none new : forall apps, find_app new apps = Ok None -> ~ In (ap_name new) (map ap_name apps).
Proof.
  induction apps as [|a apps IH]; intros H; [intros []|]. cbn [find_app] in H. destruct (same_app a new); [discriminate H|].
  destruct (String.eqb (ap_name new) (ap_name a)) eqn:E; [discriminate H|]. apply String.eqb_neq in E. intros [X|I]; [congruence|exact (IH H I)].
Qed.

Lemma nodup_snoc {A} (x : A) l : NoDup l -> ~ In x l -> NoDup (l ++ [x]).
Proof.
  intros D. induction D as [|y l Ny D IH]; intros N; [constructor; [intros []|constructor]|]. cbn [app]. constructor; [|apply IH; intros I; apply N; right; exact I].
  intros I. apply in_app_or in I. destruct I as [I|[->|[]]]; [exact (Ny I)|apply N; left; reflexivity].
Qed.

(** ** One term *)
Definition side_fits (vs : list ver) (N : string -> Prop) (D : string -> string -> ipaddr -> Prop) (b : list (string * list (string * list net))) (z : string) (l inc exc : list net) : Prop :=
  (forall n, In n (map nptoken l) -> N n /\ book_entry b z n <> None) /\
  forall x, in_families vs x -> (l = [] \/ exists n, In n (map nptoken l) /\ D z n x) <-> side_matches inc exc x.
Record fits (vs : list ver) (N : string -> Prop) (D : string -> string -> ipaddr -> Prop) (c : srx_cfg) (st : list (string * list (string * list net)) * list srx_app) (t : term) (y : srx_policy) : Prop := {
  ft_term : exists src dst, sp_term y = set_action (t_action t) (set_source_address src (set_destination_address dst t));
  ft_src : side_fits vs N D (fst st) (sc_from c) (t_source_address (sp_term y)) (t_source_address t) (t_source_address_exclude t);
  ft_dst : side_fits vs N D (fst st) (sc_to c) (t_destination_address (sp_term y)) (t_destination_address t) (t_destination_address_exclude t);
  ft_app : exists a, In a (snd st) /\ ap_name a = sp_app y /\ app_content a = has_app y /\ forall p, (exists ws, In ws (conds a) /\ app_conditions p ws) <-> service_matches t p }.
Lemma side_fits_grows vs N D b b' z l inc exc : (forall z n, book_entry b z n <> None -> book_entry b' z n <> None) -> side_fits vs N D b z l inc exc -> side_fits vs N D b' z l inc exc.
Proof. intros G (A & B). split; [|exact B]. intros n I. destruct (A n I). auto. Qed.
Lemma fits_grows vs N D c st st' t y : grows st st' -> fits vs N D c st t y -> fits vs N D c st' t y.
Proof.
  intros (G1 & G2) [A B C (a & I & E)]. constructor; [exact A|exact (side_fits_grows _ _ _ _ _ _ _ _ _ G1 B)|exact (side_fits_grows _ _ _ _ _ _ _ _ _ G1 C)|].
  exists a. split; [apply G2, I|exact E].
Qed.
Record term_fine (vs : list ver) (N : string -> Prop) (D : string -> string -> ipaddr -> Prop) (from to : string) (t : term) : Prop := {
  tf_ok : srx_term_ok vs t;
  tf_names : forall n, In n (side_names (t_name t) "_SRC_EXCLUDE" (t_source_address t) (t_source_address_exclude t) ++
                             side_names (t_name t) "_DST_EXCLUDE" (t_destination_address t) (t_destination_address_exclude t)) -> N n;
  tf_src : side_settled vs (D from) (t_name t) "_SRC_EXCLUDE" (t_source_address t) (t_source_address_exclude t);
  tf_dst : side_settled vs (D to) (t_name t) "_DST_EXCLUDE" (t_destination_address t) (t_destination_address_exclude t) }.
Record cfg_fine (vs : list ver) (D : string -> string -> ipaddr -> Prop) (c : srx_cfg) : Prop := {
  cf_vers : sc_vers c = vs;
  cf_express : sc_express c = false;
  cf_zones : plain_word (sc_from c) /\ plain_word (sc_to c);
  cf_book : sc_global c = true -> forall z z' n x, D z n x <-> D z' n x }.
Definition no_packet (vs : list ver) (t : term) : Prop := forall x y, in_families vs x -> in_families vs y ->
  ~ (side_matches (t_source_address t) (t_source_address_exclude t) x /\ side_matches (t_destination_address t) (t_destination_address_exclude t) y).
Definition out_fits (vs : list ver) (N : string -> Prop) (D : string -> string -> ipaddr -> Prop) (c : srx_cfg) st (t : term) (out : list srx_policy) : Prop :=
  (out = [] /\ no_packet vs t) \/ exists y, out = [y] /\ fits vs N D c st t y.
Lemma entry_grows vs N (D : string -> string -> ipaddr -> Prop) z l b : book_ok vs N D b -> side_good vs N (D z) l ->
  (forall z' n, book_entry b z' n <> None -> book_entry (fold_left (build_address_book z) l b) z' n <> None) /\
  (forall n, In n (map nptoken l) -> book_entry (fold_left (build_address_book z) l b) z n <> None).
Proof.
  intros B G. destruct (fold_book_ok vs N D z l b B G) as (_ & X). split.
  - intros z' n H E. apply X in E. apply H, E.
  - intros n I E. apply X in E. apply (proj2 E). auto.
Qed.
Lemma srx_term_spec vs N D c st t st' out : cfg_fine vs D c -> state_ok vs N D st -> term_fine vs N D (sc_from c) (sc_to c) t -> srx_term c st t = Ok (st', out) ->
  state_ok vs N D st' /\ grows st st' /\ out_fits vs N D c st' t out.
Proof.
  intros [Cv Ce (Cf & Ct) Cb] S [K Ns Ss Sd] H. destruct st as (book, apps). unfold srx_term in H. destruct S as [B Zs Nd Gd]. cbn [fst snd] in *.
  apply bind_ok in H. destruct H as (src & Es & H). apply bind_ok in H. destruct H as (dst & Ed & H). cbv zeta in H. rewrite Cv in H.
  fold (side_list book (sc_global c) src) in H. fold (side_list book (sc_global c) dst) in H.
  pose proof (srx_side_spec vs N D book (sc_global c) (sc_from c) _ _ _ _ src B Cb (sx_src _ _ K) (fun n I => Ns n (in_or_app _ _ _ (or_introl I))) Ss Es) as R1.
  pose proof (srx_side_spec vs N D book (sc_global c) (sc_to c) _ _ _ _ dst B Cb (sx_dst _ _ K) (fun n I => Ns n (in_or_app _ _ _ (or_intror I))) Sd Ed) as R2.
  destruct (srx_valid vs (side_list book (sc_global c) src)) as [src'|].
  2: { apply ok_inj in H. apply pair_equal_spec in H. destruct H as (<- & <-). split; [constructor; assumption|]. split; [apply grows_refl|]. left. split; [reflexivity|].
       intros x y Fx Fy (M & _). exact (R1 x Fx M). }
  cbn [side_result] in R1. destruct R1 as (G1 & M1). destruct (fold_book_ok vs N D (sc_from c) src' book B G1) as (B1 & _). destruct (entry_grows vs N D (sc_from c) src' book B G1) as (Gr1 & Gn1).
  set (book1 := fold_left (build_address_book (sc_from c)) src' book) in *.
  assert (Z1 : forall z, In z (map fst book1) -> plain_word z) by (intros z I; apply build_zones in I; destruct I as [->|I]; auto).
  destruct (srx_valid vs (side_list book (sc_global c) dst)) as [dst'|].
  2: { apply ok_inj in H. apply pair_equal_spec in H. destruct H as (<- & <-). split; [constructor; assumption|]. split; [split; [exact Gr1|auto]|]. left. split; [reflexivity|].
       intros x y Fx Fy (_ & M). exact (R2 y Fy M). }
  cbn [side_result] in R2. destruct R2 as (G2 & M2). destruct (fold_book_ok vs N D (sc_to c) dst' book1 B1 G2) as (B2 & _). destruct (entry_grows vs N D (sc_to c) dst' book1 B1 G2) as (Gr2 & Gn2).
  set (book2 := fold_left (build_address_book (sc_to c)) dst' book1) in *.
  assert (Z2 : forall z, In z (map fst book2) -> plain_word z) by (intros z I; apply build_zones in I; destruct I as [->|I]; auto).
  apply bind_ok in H. destruct H as (ps & Ep & H). unfold express in H. rewrite Ce in H.
  set (t' := set_action (t_action t) (set_source_address src' (set_destination_address dst' t))) in *.
  apply bind_ok in H. destruct H as (new & En & H). change (srx_application t' ps) with (srx_application t ps) in En.
  destruct (srx_application_spec vs t ps new K Ep En) as (Gnew & Nnew & Mnew & Cnew).
  apply bind_ok in H. destruct H as (known & Ek & H).
  assert (F1 : side_fits vs N D book2 (sc_from c) src' (t_source_address t) (t_source_address_exclude t)).
  { split; [|exact M1]. intros n I. split; [|apply Gr2, Gn1, I]. apply in_map_iff in I. destruct I as (a & <- & I). apply (proj1 G1 a I). }
  assert (F2 : side_fits vs N D book2 (sc_to c) dst' (t_destination_address t) (t_destination_address_exclude t)).
  { split; [|exact M2]. intros n I. split; [|apply Gn2, I]. apply in_map_iff in I. destruct I as (a & <- & I). apply (proj1 G2 a I). }
  assert (Ft : forall apps' n a, In a apps' -> ap_name a = n -> same_app a new = true -> fits vs N D c (book2, apps') t (mkSrxPolicy t' ps n)).
  { intros apps' n a I E Sa. destruct (same_conds a new Sa) as (Sc & Sp). constructor; cbn [sp_term sp_app fst snd].
    - exists src', dst'. reflexivity.
    - exact F1.
    - exact F2.
    - exists a. split; [exact I|]. split; [exact E|]. split; [rewrite Sp, Cnew; reflexivity|]. rewrite Sc. exact Mnew. }
  destruct known as [n|]; apply ok_inj in H; apply pair_equal_spec in H; destruct H as (<- & <-).
  - destruct (find_app_some _ _ _ Ek) as (a & I & E & Sa). split; [constructor; assumption|]. split; [split; [intros z m X; apply Gr2, Gr1, X|auto]|].
    right. exists (mkSrxPolicy t' ps n). split; [reflexivity|]. exact (Ft apps n a I E Sa).
  - pose proof (find_app_none _ _ Ek) as Nn. split.
    + constructor; cbn [fst snd]; [exact B2|exact Z2| |].
      * rewrite map_app. cbn [map]. apply nodup_snoc; [exact Nd|rewrite <- Nnew in Nn || idtac; exact Nn].
      * intros a I. apply in_app_or in I. destruct I as [I|[<-|[]]]; [apply Gd, I|exact Gnew].
    + split; [split; [intros z m X; apply Gr2, Gr1, X|intros x I; apply in_or_app; auto]|].
      right. exists (mkSrxPolicy t' ps (t_name t')). split; [reflexivity|]. apply (Ft (apps ++ [new]) _ new); [apply in_or_app; right; left; reflexivity|exact Nnew|].
      unfold same_app. assert (Rf : forall A (eqb : A -> A -> bool) l, (forall x, eqb x x = true) -> list_eqb eqb l l = true).
      { intros A eqb l X. induction l as [|x l IH]; [reflexivity|]. cbn [list_eqb]. rewrite X, IH. reflexivity. }
      rewrite !Rf; [reflexivity|apply Z.eqb_refl| |apply String.eqb_refl..]. intros [x|x]; cbn [pval_eqb]; [apply String.eqb_refl|apply Z.eqb_refl].
Qed.

(** ** The terms of a header *)
Lemma in_force_dec today t : expired today t = false <-> in_force today t.
Proof. pose proof (expired_force today t) as H. destruct (expired today t); split; intros X; [discriminate X|destruct (H X)|exact H|reflexivity]. Qed.
Lemma skipped_live today t : srx_live today t <-> srx_skipped t = false /\ expired today t = false.
Proof.
  unfold srx_live, srx_skipped. rewrite in_force_dec, !orb_false_iff, !andb_false_iff.
  assert (E : existsb (fun o => str_in o ["established"; "tcp-established"]) (t_option t) = false <-> ~ wants_srx_established t).
  { split.
    - intros X Y. assert (Z : existsb (fun o => str_in o ["established"; "tcp-established"]) (t_option t) = true).
      { apply existsb_exists. destruct Y as [Y|Y]; [exists "established"|exists "tcp-established"]; (split; [exact Y|reflexivity]). }
      congruence.
    - intros X. destruct (existsb _ _) eqn:Y; [|reflexivity]. exfalso. apply X. apply existsb_exists in Y. destruct Y as (o & I & J). apply str_in_spec in J.
      destruct J as [<-|[<-|[]]]; [left|right]; exact I. }
  rewrite E. unfold meant_for.
  assert (P : (some (t_platform t) = false \/ negb (str_in "srx" (t_platform t)) = false) <-> (t_platform t = [] \/ In "srx" (t_platform t))).
  { rewrite some_nil, negb_false_iff, str_in_spec. reflexivity. }
  assert (Q : (some (t_platform_exclude t) = false \/ str_in "srx" (t_platform_exclude t) = false) <-> ~ In "srx" (t_platform_exclude t)).
  { rewrite some_nil. split.
    - intros [->|X] I; [destruct I|]. apply str_in_spec in I. congruence.
    - intros X. right. destruct (str_in "srx" (t_platform_exclude t)) eqn:Y; [|reflexivity]. apply str_in_spec in Y. destruct (X Y). }
  rewrite P, Q. tauto.
Qed.
Lemma set_name_same t : set_name (t_name t) t = t.
Proof. destruct t. reflexivity. Qed.
Definition block_fits (vs : list ver) (N : string -> Prop) (D : string -> string -> ipaddr -> Prop) (today : Z) (c : srx_cfg) st (t : term) (out : list srx_policy) : Prop :=
  (~ srx_live today t /\ out = []) \/ (srx_live today t /\ out_fits vs N D c st t out).
Lemma out_grows vs N D c st st' t out : grows st st' -> out_fits vs N D c st t out -> out_fits vs N D c st' t out.
Proof. intros G [H|(y & E & F)]; [left; exact H|]. right. exists y. split; [exact E|exact (fits_grows _ _ _ _ _ _ _ _ G F)]. Qed.
Lemma srx_terms_spec vs N D c today : cfg_fine vs D c -> forall terms seen st st' ps, state_ok vs N D st ->
  (forall t, In t terms -> srx_live today t -> term_fine vs N D (sc_from c) (sc_to c) t) ->
  srx_terms c today seen st terms = Ok (st', ps) ->
  state_ok vs N D st' /\ grows st st' /\ exists blocks, ps = concat blocks /\ Forall2 (block_fits vs N D today c st') terms blocks.
Proof.
  intros C. induction terms as [|t terms IH]; intros seen st st' ps S F H; cbn [srx_terms] in H.
  - apply ok_inj in H. apply pair_equal_spec in H. destruct H as (<- & <-). split; [exact S|]. split; [apply grows_refl|]. exists []. split; [reflexivity|constructor].
  - assert (Fr : forall t', In t' terms -> srx_live today t' -> term_fine vs N D (sc_from c) (sc_to c) t') by (intros t' I; apply F; right; exact I).
    assert (Dead : forall seen', srx_terms c today seen' st terms = Ok (st', ps) -> ~ srx_live today t ->
      state_ok vs N D st' /\ grows st st' /\ exists blocks, ps = concat blocks /\ Forall2 (block_fits vs N D today c st') (t :: terms) blocks).
    { intros seen' H' L. destruct (IH seen' st st' ps S Fr H') as (A & B & blocks & E & G). split; [exact A|]. split; [exact B|].
      exists ([] :: blocks). split; [exact E|]. constructor; [left; auto|exact G]. }
    destruct (srx_skipped t) eqn:Sk; [apply (Dead seen H); intros L; apply skipped_live in L; destruct L; congruence|].
    apply bind_ok in H. destruct H as (n & En & H). apply fix_term_length_plain in En. subst n. destruct (str_in (t_name t) seen); [discriminate H|].
    destruct (expired today t) eqn:Ex; [apply (Dead _ H); intros L; apply skipped_live in L; destruct L; congruence|].
    assert (L : srx_live today t) by (apply skipped_live; auto). rewrite set_name_same in H.
    destruct (srx_term c st t) as [(st1 & one)|e] eqn:E1; [|discriminate H]. cbn [bind] in H.
    destruct (srx_term_spec vs N D c st t st1 one C S (F t (or_introl eq_refl) L) E1) as (S1 & G1 & O1).
    destruct (srx_terms c today (t_name t :: seen) st1 terms) as [(st2 & more)|e] eqn:E2; [|discriminate H]. cbn [bind] in H.
    apply ok_inj in H. apply pair_equal_spec in H. destruct H as (<- & <-).
    destruct (IH _ st1 st2 more S1 Fr E2) as (S2 & G2 & blocks & Eb & Fb). split; [exact S2|]. split; [exact (grows_trans _ _ _ G1 G2)|].
    exists (one :: blocks). split; [rewrite Eb; reflexivity|]. constructor; [|exact Fb]. right. split; [exact L|exact (out_grows _ _ _ _ _ _ _ _ G2 O1)].
Qed.

(** ** Large terms *)
Lemma weight_bytes vs t : byte_length vs t = side_weight vs (t_source_address t) + side_weight vs (t_destination_address t).
Proof.
  unfold byte_length. assert (A : forall l, fold_right Z.add 0 (map srx_weight (filter (fun n => existsb (ver_eqb (nver n)) vs) l)) = side_weight vs l).
  { induction l as [|n l IH]; [reflexivity|]. unfold side_weight. cbn [filter fold_right]. fold (side_weight vs l). destruct (existsb (ver_eqb (nver n)) vs); cbn [map fold_right]; [|exact IH].
    rewrite IH. unfold srx_weight. destruct (nver n); lia. }
  assert (B : forall a b, side_weight vs (a ++ b) = side_weight vs a + side_weight vs b).
  { induction a as [|n a IH]; intros b; [reflexivity|]. unfold side_weight. cbn [app fold_right]. fold (side_weight vs (a ++ b)). fold (side_weight vs a). rewrite IH. fold (side_weight vs b). lia. }
  rewrite A. apply B.
Qed.
Lemma large_live vs today t u : (srx_live today t -> srx_term_ok vs t) -> In u (fix_large_term vs t) -> srx_live today u -> u = t /\ fix_large_term vs t = [t].
Proof.
  intros K I L. unfold fix_large_term in *. destruct (1023 <? byte_length vs t) eqn:E; [|destruct I as [<-|[]]; auto]. exfalso.
  apply in_map_iff in I. destruct I as (kp & <- & _). assert (L' : srx_live today t) by exact L. pose proof (sx_weight _ _ (K L')) as W. rewrite <- weight_bytes in W. lia.
Qed.
Lemma large_kept vs t : srx_term_ok vs t -> fix_large_term vs t = [t].
Proof. intros K. unfold fix_large_term. pose proof (sx_weight _ _ K) as W. rewrite <- weight_bytes in W. assert (E : 1023 <? byte_length vs t = false) by lia. rewrite E. reflexivity. Qed.
Lemma large_says vs today p terms o : (forall t, In t terms -> srx_live today t -> srx_term_ok vs t) ->
  first_says (srx_rule today p) (fix_large vs terms) o <-> first_says (srx_rule today p) terms o.
Proof.
  intros K. unfold fix_large. rewrite flat_map_concat_map. apply first_says_blocks. induction terms as [|t terms IH]; [constructor|]. cbn [map]. constructor; [|apply IH; intros u I; apply K; right; exact I].
  split.
  - intros a. split.
    + intros (u & I & R). destruct (large_live vs today t u (K t (or_introl eq_refl)) I (proj1 R)) as (-> & _). exact R.
    + intros R. exists t. split; [|exact R]. rewrite (large_kept vs t); [left; reflexivity|]. apply K; [left; reflexivity|exact (proj1 R)].
  - intros a a' (_ & _ & w & E1 & E2) (_ & _ & w' & E1' & E2'). assert (w = w') by congruence. subst. congruence.
Qed.
