(** The text of address books of SRX configurations. *)
From Coq Require Import Lia ZifyBool ZifyNat Permutation.
From Verif Require Import SpecSrx BaseFacts IPFacts PyStrFacts CollapseProofs ExcludeProofs GenProofs CiscoDup CiscoProofs CiscoAcl NftChains JuniperText JuniperProofs GceProofs SrxText SrxRead SrxBook.
Local Open Scope string_scope.
Local Open Scope list_scope.
Local Open Scope Z_scope.

Definition listed (names : list (string * list net)) (g : string) : list net := match assoc g names with Some l => l | None => [] end.
Lemma group_spec names g r : valid_list (listed names g) -> srx_group names g = Ok r ->
  fst r = g /\ valid_list (snd r) /\ forall x, covered (snd r) x <-> covered (listed names g) x.
Proof.
  intros V E. unfold srx_group in E. fold (listed names g) in E. destruct (sort_addr_list_spec (listed names g) V) as (P & _).
  assert (Vs : valid_list (sort_addr_list (listed names g))).
  { apply Forall_forall. intros n I. apply (valid_in _ _ V). exact (Permutation_in _ P I). }
  destruct (collapse_addr_list (sort_addr_list (listed names g)) []) as [l|e] eqn:C; [|discriminate E]. cbn [bind] in E. apply ok_inj in E. subst r. cbn [fst snd].
  destruct (collapse_coverage _ _ _ Vs C) as (Vl & Cl). split; [reflexivity|]. split; [exact Vl|]. intros x. rewrite Cl. unfold covered. split; intros (n & I & H); exists n.
  - split; [exact (Permutation_in _ P I)|exact H].
  - split; [exact (Permutation_in _ (Permutation_sym P) I)|exact H].
Qed.
Lemma groups_spec names keys groups : (forall g, valid_list (listed names g)) -> mapM (srx_group names) keys = Ok groups ->
  map fst groups = keys /\ forall g l, In (g, l) groups -> valid_list l /\ forall x, covered l x <-> covered (listed names g) x.
Proof.
  intros V E. apply mapM_forall2 in E. induction E as [|g r keys groups E F (IH1 & IH2)].
  - split; [reflexivity|intros g l []].
  - destruct (group_spec names g r (V g) E) as (G1 & G2 & G3). split; [cbn [map]; rewrite G1, IH1; reflexivity|]. intros h l [->|I]; [|exact (IH2 h l I)].
    cbn [fst snd] in *. subst h. auto.
Qed.
(** What the statements for some names say. *)
Lemma groups_name names keys groups n x : (forall g, valid_list (listed names g)) -> (forall g, In g keys -> plain_word g) -> NoDup keys ->
  (forall g k, In g keys -> 0 <= k -> n <> member_name g k) -> mapM (srx_group names) keys = Ok groups -> on_net x -> In n keys ->
  name_says (group_stmts groups) n x <-> covered (listed names n) x.
Proof.
  intros V P U F E N I. destruct (groups_spec names keys groups V E) as (K & G).
  assert (Gi : forall g l, In (g, l) groups -> In g keys) by (intros g l J; rewrite <- K; exact (in_map fst _ _ J)).
  rewrite groups_say.
  - split.
    + intros (l & J & C). apply (G n l J), C.
    + intros C. rewrite <- K in I. apply in_map_iff in I. destruct I as ((g & l) & E1 & J). cbn [fst] in E1. subst g. exists l. split; [exact J|apply (G n l J), C].
  - intros g l J. split; [apply P, (Gi g l J)|apply (G g l J)].
  - exact N.
  - rewrite K. exact U.
  - intros g l k J Hk. apply F; [exact (Gi g l J)|exact Hk].
Qed.
Lemma groups_lines names keys groups : (forall g, valid_list (listed names g)) -> (forall g, In g keys -> plain_word g) -> mapM (srx_group names) keys = Ok groups ->
  renders (srx_groups groups) (group_stmts groups) /\ forallb stmt_ok (group_stmts groups) = true.
Proof.
  intros V P E. destruct (groups_spec names keys groups V E) as (K & G).
  assert (Gk : groups_ok groups) by (intros g l J; split; [apply P; rewrite <- K; exact (in_map fst _ _ J)|apply (G g l J)]).
  split; [apply groups_render, Gk|apply groups_stmt_ok, Gk].
Qed.

(** ** A book for all zones *)
Lemma assoc_map {B} (f : string -> B) keys g : assoc g (map (fun k => (k, f k)) keys) = if in_dec string_dec g keys then Some (f g) else None.
Proof.
  induction keys as [|k keys IH]; [reflexivity|]. cbn [map assoc]. destruct (String.eqb g k) eqn:E.
  - apply String.eqb_eq in E. subst k. destruct (in_dec string_dec g (g :: keys)) as [_|N]; [reflexivity|]. destruct N. left. reflexivity.
  - apply String.eqb_neq in E. rewrite IH. destruct (in_dec string_dec g keys) as [I|N], (in_dec string_dec g (k :: keys)) as [I'|N']; try reflexivity.
    + destruct N'. right. exact I.
    + destruct I' as [->|I']; [congruence|]. destruct (N I').
Qed.
Lemma entry_in vs N b z names n l : book_shape vs N b -> In (z, names) b -> In (n, l) names -> book_entry b z n = Some l.
Proof.
  intros S I J. unfold book_entry. rewrite (assoc_unique z names b (bs_zones _ _ _ S) I). apply assoc_unique; [exact (bs_names _ _ _ S _ _ I)|exact J].
Qed.
Lemma entry_from b z n l : book_entry b z n = Some l -> exists names, In (z, names) b /\ In (n, l) names.
Proof.
  unfold book_entry. destruct (assoc z b) as [names|] eqn:E; [|discriminate]. intros H. exists names. split; [apply assoc_in, E|apply assoc_in, H].
Qed.
Lemma global_keys vs N b g : book_shape vs N b -> In g (map fst (global_book b)) <-> exists z l, book_entry b z g = Some l.
Proof.
  intros S. unfold global_book. rewrite map_map. cbn [fst]. rewrite map_id, sorted_set_in, in_flat_map. split.
  - intros ((z & names) & I & J). cbn [snd] in J. apply in_map_iff in J. destruct J as ((n & l) & E & J). cbn [fst] in E. subst n.
    exists z, l. exact (entry_in vs N b z names g l S I J).
  - intros (z & l & E). apply entry_from in E. destruct E as (names & I & J). exists (z, names). split; [exact I|exact (in_map fst _ _ J)].
Qed.
Lemma global_listed vs N b g x : book_shape vs N b -> covered (listed (global_book b) g) x <-> exists z l, book_entry b z g = Some l /\ covered l x.
Proof.
  intros S. unfold listed, global_book. rewrite assoc_map.
  set (all := flat_map (fun zone => match assoc g (snd zone) with Some l => l | None => [] end) b).
  assert (A : covered all x <-> exists z l, book_entry b z g = Some l /\ covered l x).
  { unfold covered. split.
    - intros (n & I & C). unfold all in I. apply in_flat_map in I. destruct I as ((z & names) & I & J). cbn [snd] in J.
      destruct (assoc g names) as [l|] eqn:E; [|destruct J]. exists z, l. split; [exact (entry_in vs N b z names g l S I (assoc_in _ _ _ E))|eauto].
    - intros (z & l & E & (n & I & C)). exists n. split; [|exact C]. unfold all. pose proof E as E'. unfold book_entry in E'. destruct (assoc z b) as [names|] eqn:Z; [|discriminate E'].
      apply in_flat_map. exists (z, names). split; [apply assoc_in, Z|]. cbn [snd]. rewrite E'. exact I. }
  destruct (in_dec string_dec g _) as [I|No]; [exact A|]. split; [intros (n & [] & _)|]. intros (z & l & E & C). exfalso. apply No. apply sorted_set_in, in_flat_map.
  apply entry_from in E. destruct E as (names & I & J). exists (z, names). split; [exact I|exact (in_map fst _ _ J)].
Qed.
Lemma global_valid vs N b g : book_shape vs N b -> valid_list (listed (global_book b) g).
Proof.
  intros S. unfold listed, global_book. rewrite assoc_map. destruct (in_dec string_dec g _); [|constructor]. apply Forall_forall. intros a I. apply in_flat_map in I.
  destruct I as ((z & names) & I & J). cbn [snd] in J. destruct (assoc g names) as [l|] eqn:E; [|destruct J].
  pose proof (entry_in vs N b z names g l S I (assoc_in _ _ _ E)) as K. apply (valid_in l); [apply (bs_entry _ _ _ S _ _ _ K)|exact J].
Qed.
Definition numbers_apart (N : string -> Prop) : Prop := forall n m k, N n -> N m -> 0 <= k -> n <> member_name m k.
Definition book_in (security : list stmt) (zone : string) : list stmt :=
  within ["global"] (within ["replace:"; "address-book"] security)
  ++ within ["replace:"; "address-book"] (within ["security-zone"; zone] (within ["zones"] security)).
Definition policies_stmt (l : list stmt) : stmt := Block ["replace:"; "policies"] l.
Definition book_right (vs : list ver) (D : string -> string -> ipaddr -> Prop) (b : list (string * list (string * list net))) (s : stmt) : Prop :=
  within ["replace:"; "policies"] [s] = [] /\
  forall rest z n l x, book_entry b z n = Some l -> in_families vs x -> name_says (book_in [s; policies_stmt rest] z) n x <-> D z n x.
Lemma global_right vs N D b lines : book_ok vs N D b -> (forall z z' n x, D z n x <-> D z' n x) -> (forall n, N n -> plain_word n) -> numbers_apart N ->
  srx_address_book true b = Ok lines -> exists s, renders lines [s] /\ stmt_ok s = true /\ book_right vs D b s.
Proof.
  intros [S W] Z P A E. unfold srx_address_book in E. set (names := global_book b) in *. set (keys := map fst names) in *.
  destruct (mapM (srx_group names) keys) as [groups|e] eqn:M; [|discriminate E]. cbn [bind] in E. apply ok_inj in E. subst lines.
  assert (V : forall g, valid_list (listed names g)) by (intros g; exact (global_valid vs N b g S)).
  assert (Kn : forall g, In g keys -> N g).
  { intros g I. unfold keys, names in I. apply (global_keys vs N b g S) in I. destruct I as (z & l & E). apply (bs_entry _ _ _ S _ _ _ E). }
  assert (U : NoDup keys) by (unfold keys, names, global_book; rewrite map_map; cbn [fst]; rewrite map_id; apply sorted_set_nodup).
  destruct (groups_lines names keys groups V (fun g I => P g (Kn g I)) M) as (R & O).
  exists (Block ["replace:"; "address-book"] [Block ["global"] (group_stmts groups)]). split; [|split].
  - change ([srx_line 1 "replace: address-book {"; srx_line 2 "global {"] ++ srx_groups groups ++ [srx_line 2 "}"; srx_line 1 "}"])
      with ([srx_line 1 "replace: address-book {"] ++ ([srx_line 2 "global {"] ++ srx_groups groups ++ [srx_line 2 "}"; srx_line 1 "}"])).
    replace ([srx_line 2 "global {"] ++ srx_groups groups ++ [srx_line 2 "}"; srx_line 1 "}"])
      with (([srx_line 2 "global {"] ++ srx_groups groups ++ [srx_line 2 "}"]) ++ [srx_line 1 "}"]) by (rewrite <- !app_assoc; reflexivity).
    apply block_words; [reflexivity|plain|discriminate|]. apply block_words; [reflexivity|plain|discriminate|exact R].
  - cbn [stmt_ok forallb]. rewrite O. reflexivity.
  - split; [reflexivity|]. intros rest z n l x B Fx. unfold book_in.
    change (within ["global"] (within ["replace:"; "address-book"] [Block ["replace:"; "address-book"] [Block ["global"] (group_stmts groups)]; policies_stmt rest]))
      with ((group_stmts groups ++ []) : list stmt).
    change (within ["zones"] [Block ["replace:"; "address-book"] [Block ["global"] (group_stmts groups)]; policies_stmt rest]) with (@nil stmt).
    cbn [within flat_map]. rewrite !app_nil_r.
    assert (In0 : In n keys) by (apply (global_keys vs N b n S); eauto).
    rewrite (groups_name names keys groups n x V (fun g I => P g (Kn g I)) U); [|intros g k I Hk; apply A; [apply Kn, In0|apply Kn, I|exact Hk]|exact M|exact (proj2 Fx)|exact In0].
    unfold names. rewrite (global_listed vs N b n x S). split.
    + intros (z' & l' & B' & C). apply (Z z z'), (W _ _ _ _ B' Fx), C.
    + intros H. exists z, l. split; [exact B|apply (W _ _ _ _ B Fx), H].
Qed.

(** ** A book for each zone *)
Lemma zone_valid vs N b z names g : book_shape vs N b -> In (z, names) b -> valid_list (listed names g).
Proof.
  intros S I. unfold listed. destruct (assoc g names) as [l|] eqn:E; [|constructor].
  apply (bs_entry _ _ _ S z g l). exact (entry_in vs N b z names g l S I (assoc_in _ _ _ E)).
Qed.
Lemma within_one ws w body : within ws [Block w body] = if list_eq_dec string_dec w ws then body else [].
Proof. unfold within. cbn [flat_map]. destruct (list_eq_dec string_dec w ws); [apply app_nil_r|reflexivity]. Qed.
Lemma within_app ws a b : within ws (a ++ b) = within ws a ++ within ws b.
Proof. apply flat_map_app. Qed.
Definition zone_stmt (z : string) (groups : list (string * list net)) : stmt := Block ["security-zone"; z] [Block ["replace:"; "address-book"] (group_stmts groups)].
Lemma zones_right vs N D b lines : book_ok vs N D b -> (forall n, N n -> plain_word n) -> (forall z, In z (map fst b) -> plain_word z) -> numbers_apart N ->
  srx_address_book false b = Ok lines -> exists s, renders lines [s] /\ stmt_ok s = true /\ book_right vs D b s.
Proof.
  intros [S W] P Pz A E. unfold srx_address_book in E.
  match type of E with context [mapM ?f b] => set (one := f) in * end.
  destruct (mapM one b) as [zones|e] eqn:M; [|discriminate E]. cbn [bind] in E. apply ok_inj in E. subst lines. apply mapM_forall2 in M.
  assert (H : exists body, renders (concat zones) body /\ forallb stmt_ok body = true /\
    forall z, exists st, within ["replace:"; "address-book"] (within ["security-zone"; z] body) = st /\
      (forall names, In (z, names) b -> exists groups, st = group_stmts groups /\ mapM (srx_group names) (sorted_set (map fst names)) = Ok groups) /\ (~ In z (map fst b) -> st = [])).
  { assert (Sub : forall p, In p b -> In p b) by auto. assert (U : NoDup (map fst b)) by apply (bs_zones _ _ _ S).
    assert (Hg : forall l, Forall2 (fun x y => one x = Ok y) l zones -> (forall p, In p l -> In p b) -> NoDup (map fst l) ->
      exists body, renders (concat zones) body /\ forallb stmt_ok body = true /\
      forall z, exists st, within ["replace:"; "address-book"] (within ["security-zone"; z] body) = st /\
        (forall names, In (z, names) l -> exists groups, st = group_stmts groups /\ mapM (srx_group names) (sorted_set (map fst names)) = Ok groups) /\ (~ In z (map fst l) -> st = [])).
    { clear M U Sub. induction 1 as [|(z & names) y l ys E F IH]; intros Sub U.
      - exists []. split; [apply renders_nil|]. split; [reflexivity|]. intros z. exists []. split; [reflexivity|]. split; [intros names []|reflexivity].
      - cbn [map fst] in U. inversion U as [|? ? U1 U2]; subst. destruct (IH (fun p I => Sub p (or_intror I)) U2) as (body & R & O & B).
        assert (Iz : In (z, names) b) by (apply Sub; left; reflexivity). unfold one in E. cbn [fst snd] in E.
        destruct (mapM (srx_group names) (sorted_set (map fst names))) as [groups|e] eqn:Mg; [|discriminate E]. cbn [bind] in E. apply ok_inj in E. subst y.
        assert (Pk : forall g, In g (sorted_set (map fst names)) -> plain_word g).
        { intros g I. apply sorted_set_in, in_map_iff in I. destruct I as ((n & k) & E & I). cbn [fst] in E. subst n.
          apply P. apply (bs_entry _ _ _ S z g k). exact (entry_in vs N b z names g k S Iz I). }
        destruct (groups_lines names _ groups (fun g => zone_valid vs N b z names g S Iz) Pk Mg) as (Rg & Og).
        assert (Pw : plain_word z) by (apply Pz; exact (in_map fst _ _ Iz)).
        exists (zone_stmt z groups :: body). split; [|split].
        + cbn [concat]. apply (renders_app _ _ [zone_stmt z groups] body); [|exact R].
          replace ([srx_line 2 ("security-zone " ++ z ++ " {")%string; srx_line 3 "replace: address-book {"] ++ srx_groups groups ++ [srx_line 3 "}"; srx_line 2 "}"])
            with ([srx_line 2 ("security-zone " ++ z ++ " {")%string] ++ ([srx_line 3 "replace: address-book {"] ++ srx_groups groups ++ [srx_line 3 "}"]) ++ [srx_line 2 "}"])
            by (rewrite <- !app_assoc; reflexivity).
          apply block_words; [cbn [join]; rewrite !str_app_assoc; reflexivity|plain|discriminate|]. apply block_words; [reflexivity|plain|discriminate|exact Rg].
        + cbn [forallb]. rewrite O, andb_true_r. unfold zone_stmt. cbn [stmt_ok]. apply andb_true_iff. split; [|cbn [forallb stmt_ok]; rewrite Og; reflexivity]. apply (plain_oks ["security-zone"; z]). plain.
        + intros z'. destruct (B z') as (st & B1 & B2 & B3). destruct (string_dec z z') as [<-|Nz].
          * exists (group_stmts groups). split; [|split].
            -- change (zone_stmt z groups :: body) with ([zone_stmt z groups] ++ body). rewrite !within_app, B1, (B3 U1). unfold zone_stmt. rewrite within_one.
               destruct (list_eq_dec string_dec ["security-zone"; z] ["security-zone"; z]) as [_|N0]; [|congruence]. rewrite within_one.
               destruct (list_eq_dec string_dec ["replace:"; "address-book"] ["replace:"; "address-book"]) as [_|N0]; [|congruence]. apply app_nil_r.
            -- intros names' [E|I]; [|destruct U1; exact (in_map fst _ _ I)]. apply pair_equal_spec in E. destruct E as (_ & <-). exists groups. auto.
            -- intros N0. destruct N0. left. reflexivity.
          * exists st. split; [|split].
            -- change (zone_stmt z groups :: body) with ([zone_stmt z groups] ++ body). rewrite !within_app, B1. unfold zone_stmt. rewrite within_one.
               destruct (list_eq_dec string_dec ["security-zone"; z] ["security-zone"; z']) as [E|_]; [congruence|reflexivity].
            -- intros names' [E|I]; [|exact (B2 names' I)]. apply pair_equal_spec in E. destruct E as (E & _). congruence.
            -- intros N0. apply B3. intros I. apply N0. right. exact I. }
    exact (Hg b M Sub U). }
  destruct H as (body & R & O & B). exists (Block ["zones"] body). split; [|split].
  - apply block_words; [reflexivity|plain|discriminate|exact R].
  - cbn [stmt_ok]. rewrite O. reflexivity.
  - split; [reflexivity|]. intros rest z n l x En Fx. unfold book_in.
    change (within ["replace:"; "address-book"] [Block ["zones"] body; policies_stmt rest]) with (@nil stmt).
    change (within ["zones"] [Block ["zones"] body; policies_stmt rest]) with (body ++ []). rewrite app_nil_r. change (within ["global"] []) with (@nil stmt). cbn [app].
    destruct (entry_from b z n l En) as (names & Iz & In0). destruct (B z) as (st & -> & B2 & _). destruct (B2 names Iz) as (groups & -> & M').
    assert (Kn : forall g, In g (sorted_set (map fst names)) -> N g).
    { intros g I. apply sorted_set_in, in_map_iff in I. destruct I as ((n' & k) & E & I). cbn [fst] in E. subst n'.
      apply (bs_entry _ _ _ S z g k). exact (entry_in vs N b z names g k S Iz I). }
    assert (Ik : In n (sorted_set (map fst names))) by (apply sorted_set_in; exact (in_map fst _ _ In0)).
    rewrite (groups_name names _ groups n x (fun g => zone_valid vs N b z names g S Iz) (fun g I => P g (Kn g I)) (sorted_set_nodup _)); [|intros g k I Hk; apply A; [apply Kn, Ik|apply Kn, I|exact Hk]|exact M'|exact (proj2 Fx)|exact Ik].
    unfold listed. rewrite (assoc_unique n l names (bs_names _ _ _ S _ _ Iz) In0). apply (W _ _ _ _ En Fx).
Qed.
