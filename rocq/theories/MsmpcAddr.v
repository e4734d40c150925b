(** Proofs about the addresses of MS-MPC rules. *)
From Coq Require Import Lia ZifyBool ZifyNat.
From Verif Require Import SpecMsmpcAddr BaseFacts PyStrFacts TextProofs IPFacts ExcludeProofs PolicyProofs GenProofs GenProofs2 CiscoProofs CiscoProofs2 CiscoTerm
  JuniperText JuniperProofs EvoProofs MsmpcProofs.
Local Open Scope string_scope.
Local Open Scope list_scope.
Local Open Scope Z_scope.

(** ** Subnets *)
Lemma subnets_in k n m : In m (subnets k n) <-> exists j, 0 <= j < 2 ^ (k - nlen n) /\ m = plain (nver n) (naddr n + j * 2 ^ (width (nver n) - k)) k.
Proof.
  unfold subnets. rewrite in_map_iff. split.
  - intros (j & <- & I). apply in_seq in I. exists (Z.of_nat j). split; [lia|reflexivity].
  - intros (j & L & ->). exists (Z.to_nat j). rewrite Z2Nat.id by lia. split; [reflexivity|]. apply in_seq. lia.
Qed.
Lemma subnets_size k n : nlen n <= k <= width (nver n) -> size n = 2 ^ (k - nlen n) * 2 ^ (width (nver n) - k).
Proof. intros H. unfold size. rewrite <- Z.pow_add_r by lia. f_equal. lia. Qed.
Lemma subnets_valid k n m : valid n -> nlen n <= k <= width (nver n) -> In m (subnets k n) -> valid m /\ nver m = nver n /\ nlen m = k.
Proof.
  intros V H I. apply subnets_in in I. destruct I as (j & L & ->). pose proof (subnets_size k n H) as S. pose proof (valid_end n V) as E.
  destruct V as (Hl & Ha & (q & D)). split; [|split; reflexivity]. unfold valid. cbn [nver nlen naddr plain]. unfold size. cbn [nver nlen plain].
  assert (P : 0 < 2 ^ (width (nver n) - k)) by (apply Z.pow_pos_nonneg; lia).
  split; [lia|]. split; [nia|]. exists (q * 2 ^ (k - nlen n) + j). rewrite D, S. ring.
Qed.
Lemma subnets_cover k n x : nlen n <= k <= width (nver n) -> (exists m, In m (subnets k n) /\ covers m x) <-> covers n x.
Proof.
  intros H. pose proof (subnets_size k n H) as S. assert (P : 0 < 2 ^ (width (nver n) - k)) by (apply Z.pow_pos_nonneg; lia). split.
  - intros (m & I & Cv & C). apply subnets_in in I. destruct I as (j & L & ->). unfold size in C. cbn [nver nlen naddr plain] in *. split; [exact Cv|]. nia.
  - intros (Cv & C). set (d := 2 ^ (width (nver n) - k)) in *. set (j := (snd x - naddr n) / d).
    pose proof (Z.div_mod (snd x - naddr n) d ltac:(lia)) as D. pose proof (Z.mod_pos_bound (snd x - naddr n) d P) as B. fold j in D.
    exists (plain (nver n) (naddr n + j * d) k). split.
    + apply subnets_in. exists j. split; [|reflexivity]. nia.
    + split; [exact Cv|]. unfold size. cbn [nver nlen naddr plain]. fold d. nia.
Qed.
Definition wide (l : Z) (v : ver) : Z := if ver_eqb v V6 && (0 <? l) && (l <? 16) then 16 else l.
Lemma expand_valid n m : valid n -> In m (ms_expand n) -> valid m /\ nver m = nver n /\ nlen m = wide (nlen n) (nver n).
Proof.
  intros V. unfold ms_expand, wide. destruct (_ && _) eqn:E; [|intros [<-|[]]; auto].
  apply andb_prop in E. destruct E as (E & L). apply andb_prop in E. destruct E as (E & L'). apply ver_eqb_iff in E.
  apply subnets_valid; [exact V|]. rewrite E. cbn [width]. lia.
Qed.
Lemma expand_cover n x : (exists m, In m (ms_expand n) /\ covers m x) <-> covers n x.
Proof.
  unfold ms_expand. destruct (_ && _) eqn:E.
  - apply andb_prop in E. destruct E as (E & L). apply andb_prop in E. destruct E as (E & L'). apply ver_eqb_iff in E.
    apply subnets_cover. rewrite E. cbn [width]. lia.
  - split; [intros (m & [<-|[]] & C); exact C|]. intros C. exists n. split; [left; reflexivity|exact C].
Qed.
Lemma wide_le a b v : 0 <= a -> a <= b -> wide a v <= wide b v.
Proof. unfold wide. intros. destruct v; cbn [ver_eqb andb]; [lia|]. destruct (0 <? a) eqn:?, (a <? 16) eqn:?, (0 <? b) eqn:?, (b <? 16) eqn:?; cbn [andb]; lia. Qed.
Lemma expand_longest v inc exc x : of_ver v inc -> of_ver v exc -> exclusions_inside inc exc ->
  longest (flat_map ms_expand inc) (flat_map ms_expand exc) x <-> longest inc exc x.
Proof.
  intros Vi Ve Ex. rewrite (longest_side inc exc x); [|intros n I; apply Vi, I|intros n I; apply Ve, I|exact Ex]. split.
  - intros (i' & I & C & F). apply in_flat_map in I. destruct I as (i & I & I'). assert (Ci : covers i x) by (apply expand_cover; eauto).
    split; [exists i; auto|]. intros (e & J & Ce). pose proof (proj2 (expand_cover e x) Ce) as (e' & J' & Ce').
    specialize (F e' (proj2 (in_flat_map _ _ _) (ex_intro _ e (conj J J'))) Ce').
    destruct (expand_valid i i' (proj1 (Vi i I)) I') as (_ & _ & L1). destruct (expand_valid e e' (proj1 (Ve e J)) J') as (_ & _ & L2).
    destruct (Z_lt_le_dec (nlen e) (nlen i)) as [L|L]; [exact (Ex i e x I J L Ci Ce)|].
    rewrite L1, L2, (proj2 (Vi i I)), (proj2 (Ve e J)) in F. pose proof (wide_le (nlen i) (nlen e) v ltac:(pose proof (proj1 (proj1 (Vi i I))); lia) L). lia.
  - intros ((i & I & C) & N). pose proof (proj2 (expand_cover i x) C) as (i' & I' & C'). exists i'. split; [apply in_flat_map; eauto|]. split; [exact C'|].
    intros e' J Ce'. apply in_flat_map in J. destruct J as (e & J & J'). destruct N. exists e. split; [exact J|]. apply expand_cover. eauto.
Qed.

(** ** Words *)
Lemma address_cases n : valid n -> (ms_address n = any_word (nver n) /\ nlen n = 0 /\ naddr n = 0) \/ (ms_address n = prefixlen_text n /\ nlen n <> 0).
Proof.
  intros V. unfold ms_address. assert (Z6 : valid (plain V6 0 0)) by (split; [cbn; lia|split; [cbn; lia|exists 0; reflexivity]]).
  assert (Z4 : valid (plain V4 0 0)) by (split; [cbn; lia|split; [cbn; lia|exists 0; reflexivity]]).
  destruct (net_eqb n (plain V6 0 0)) eqn:E6.
  { apply net_eqb_spec in E6; auto. unfold prefix_of in E6. injection E6 as E1 E2 E3. left. rewrite E1. auto. }
  destruct (net_eqb n (plain V4 0 0)) eqn:E4.
  { apply net_eqb_spec in E4; auto. unfold prefix_of in E4. injection E4 as E1 E2 E3. left. rewrite E1. auto. }
  right. split; [reflexivity|]. intros L. destruct V as (Hl & Ha & (q & D)). unfold size in D. rewrite L, Z.sub_0_r in D. assert (q = 0) by nia. subst q.
  assert (A : naddr n = 0) by lia.
  assert (VV : valid n) by (split; [exact Hl|split; [exact Ha|exists 0; rewrite A; reflexivity]]).
  destruct (nver n) eqn:Ev; [assert (X : net_eqb n (plain V4 0 0) = true)|assert (X : net_eqb n (plain V6 0 0) = true)]; try congruence;
    apply net_eqb_spec; auto; unfold prefix_of; rewrite Ev, L, A; reflexivity.
Qed.
Lemma address_has v n x m : valid n -> nver n = v -> 0 <= x < 2 ^ width v -> entry_has v (ms_address n) x m <-> covers n (v, x) /\ m = nlen n.
Proof.
  intros V <- Hx. unfold entry_has. destruct (address_cases n V) as [(-> & L & A)|(-> & L)].
  - assert (C : covers n (nver n, x)) by (split; [reflexivity|]; unfold size; rewrite L, A, Z.sub_0_r; cbn [snd]; lia).
    rewrite L. split; [|intros (_ & ->); left; auto]. intros [(_ & ->)|(_ & E)]; [auto|]. destruct (nver n); discriminate E.
  - rewrite (prefix_length_text n V), (prefix_text_says n x V Hx). split; [|intros (C & ->); right; auto].
    intros [(E & _)|(C & E)]; [|injection E as <-; auto]. apply (f_equal prefix_length) in E. rewrite (prefix_length_text n V) in E. destruct (nver n); discriminate E.
Qed.
Lemma address_plain n : valid n -> plain_word (ms_address n).
Proof.
  intros V. destruct (address_cases n V) as [(-> & _)|(-> & _)]; [|apply prefix_plain, V]. destruct (nver n); apply plain_lit; reflexivity.
Qed.
Definition entry_stmt (except : bool) (m : net) : stmt := if except then Leaf [ms_address m; "except"] else Leaf [ms_address m].
Lemma in_block_iff v inc exc x : of_ver v inc -> of_ver v exc -> 0 <= x < 2 ^ width v ->
  in_block v (map (entry_stmt false) inc ++ map (entry_stmt true) exc) x <-> longest inc exc (v, x).
Proof.
  intros Vi Ve Hx. unfold in_block, longest. split.
  - intros (w & k & I & S & F). apply in_app_or in I. destruct I as [I|I]; apply in_map_iff in I; destruct I as (i & E & I); [|discriminate E].
    injection E as <-. destruct (Vi i I) as (V & W). apply address_has in S; try assumption. destruct S as (C & ->). exists i. split; [exact I|]. split; [exact C|].
    intros e J Ce. apply (F (ms_address e)); [apply in_or_app; right; apply in_map_iff; exists e; auto|]. destruct (Ve e J). apply address_has; auto.
  - intros (i & I & C & F). destruct (Vi i I) as (V & W). exists (ms_address i), (nlen i). split; [apply in_or_app; left; apply in_map_iff; exists i; auto|].
    split; [apply address_has; auto|]. intros e m J S. apply in_app_or in J. destruct J as [J|J]; apply in_map_iff in J; destruct J as (n & E & J); [discriminate E|].
    injection E as <-. destruct (Ve n J). apply address_has in S; try assumption. destruct S as (Ce & ->). apply F; assumption.
Qed.
Lemma address_renders c except n : valid n -> renders (ms_address_lines c except n) (map (entry_stmt except) (ms_expand n)).
Proof.
  intros V. unfold ms_address_lines. change (map (entry_stmt except) (ms_expand n)) with ([] ++ map (entry_stmt except) (ms_expand n)).
  apply renders_app; [apply address_comment_silent|].
  assert (H : forall m, In m (ms_expand n) -> valid m) by (intros m I; apply (expand_valid n m V I)).
  induction (ms_expand n) as [|m l IH]; [apply renders_nil|]. cbn [map].
  change (entry_stmt except m :: map (entry_stmt except) l) with ([entry_stmt except m] ++ map (entry_stmt except) l).
  match goal with |- renders (?a :: ?b) _ => change (a :: b) with ([a] ++ b) end.
  apply renders_app; [|apply IH; intros y I; apply H; right; exact I]. pose proof (address_plain m (H m (or_introl eq_refl))) as P.
  apply renders_line. destruct except; cbn [entry_stmt].
  - change (" except;")%string with (" " ++ "except;")%string. apply chunk_key; [exact P|]. apply chunk_lit; reflexivity.
  - apply (chunk_word_special _ ";"); [exact P|reflexivity].
Qed.
Lemma map_flat except l : flat_map (fun n => map (entry_stmt except) (ms_expand n)) l = map (entry_stmt except) (flat_map ms_expand l).
Proof. induction l as [|n l IH]; [reflexivity|]. cbn [flat_map]. rewrite map_app, IH. reflexivity. Qed.
Lemma entries_ok except l : (forall n, In n l -> valid n) -> forallb stmt_ok (map (entry_stmt except) l) = true.
Proof.
  intros V. apply forallb_forall. intros s I. apply in_map_iff in I. destruct I as (n & <- & I).
  pose proof (plain_ok _ (address_plain n (V n I))) as P. destruct except; cbn [entry_stmt stmt_ok forallb]; rewrite P; reflexivity.
Qed.
Lemma expand_of_ver v l : of_ver v l -> of_ver v (flat_map ms_expand l).
Proof. intros V m I. apply in_flat_map in I. destruct I as (n & I & I'). destruct (V n I) as (V1 & V2). destruct (expand_valid n m V1 I') as (? & ? & _). split; congruence. Qed.

(** ** Blocks *)
Lemma entry_taken except v l : of_ver v l -> Forall (taken v) (map (entry_stmt except) (flat_map ms_expand l)).
Proof.
  intros V. apply Forall_forall. intros s I. apply in_map_iff in I. destruct I as (m & <- & I). apply in_flat_map in I. destruct I as (n & I & I').
  destruct (V n I) as (V1 & V2). destruct (expand_valid n m V1 I') as (Vm & Wm & L). exists (ms_address m), (if except then ["except"] else []).
  split; [destruct except; reflexivity|]. split; [destruct except; auto|]. rewrite V2 in Wm. destruct (address_cases m Vm) as [(-> & _)|(-> & N)]; [left; congruence|].
  right. exists (nlen m). split; [apply prefix_length_text, Vm|]. intros E. rewrite L, V2, E in *. unfold wide in *. cbn [ver_eqb andb] in *.
  destruct V1 as (Hl & _). destruct (0 <? nlen n) eqn:?, (nlen n <? 16) eqn:?; cbn [andb] in *; lia.
Qed.
Lemma ms_side_reads c key v inc exc : plain_word key -> juniper_side inc exc -> side_reads key v inc exc (ms_side c key v inc exc).
Proof.
  intros Hk (Vi & Ve & Nx & Ex). unfold ms_side.
  set (a := address_of_version inc (Some v)) in *. set (x := address_of_version exc (Some v)) in *.
  assert (Va : of_ver v a) by (apply version_of_ver, Vi). assert (Vx : of_ver v x) by (apply version_of_ver, Ve).
  assert (Exv : exclusions_inside a x).
  { intros i e y I J L C1 C2. apply filter_In in I, J. exact (Ex i e y (proj1 I) (proj1 J) L C1 C2). }
  pose proof (minimize_sub a x) as Sub. pose proof (fun z => minimize_longest a x z (fun n I => proj1 (Va n I)) (fun n I => proj1 (Vx n I))) as Min.
  assert (Emp : fst (minimize_prefixes a x) = [] -> snd (minimize_prefixes a x) = []).
  { unfold minimize_prefixes. cbn [fst snd]. intros ->. clear. induction x as [|e x IH]; [reflexivity|exact IH]. }
  destruct (minimize_prefixes a x) as (a', x') eqn:Em. destruct Sub as (Sa & Sx). cbn [fst snd] in Emp.
  assert (Va' : of_ver v a') by (intros n I; apply Va, Sa, I). assert (Vx' : of_ver v x') by (intros n I; apply Vx, Sx, I).
  assert (Ex' : exclusions_inside a' x') by (intros i e y I J; apply Exv; [apply Sa, I|apply Sx, J]).
  assert (Sem : forall z, longest a' x' (v, z) <-> covered inc (v, z) /\ ~ covered exc (v, z)).
  { intros z. rewrite Min, longest_side; [|intros n I; apply Va, I|intros n I; apply Vx, I|exact Exv].
    unfold a, x. rewrite !covered_version. reflexivity. }
  destruct a' as [|n0 a0].
  - rewrite (Emp eq_refl). cbn [some negb andb orb]. destruct inc as [|i0 inc0]; cbn [some andb].
    + cbn [side_reads]. intros z. rewrite (Nx eq_refl). split; [left; reflexivity|]. intros (e & [] & _).
    + cbn [side_reads]. intros z Hz ([E|Cv] & Nc); [discriminate E|]. destruct (proj2 (Sem z) (conj Cv Nc)) as (i & [] & _).
  - cbn [some negb andb orb]. set (l := n0 :: a0) in *. cbn [app]. unfold side_reads.
    exists (map (entry_stmt false) (flat_map ms_expand l) ++ map (entry_stmt true) (flat_map ms_expand x')).
    pose proof (expand_of_ver v l Va') as El. pose proof (expand_of_ver v x' Vx') as Ee. split; [|split].
    + apply renders_statements.
      * rewrite app_assoc. apply (renders_block (append key " {") [key]).
        -- change (" {")%string with (" " ++ "{")%string. apply chunk_key; [exact Hk|]. apply chunk_lit; reflexivity.
        -- rewrite <- !map_flat. apply renders_app; apply renders_flat; intros n I; apply address_renders; [apply Va', I|apply Vx', I].
      * cbn [forallb stmt_ok]. rewrite (plain_ok _ Hk), forallb_app, !entries_ok; [reflexivity|intros n I; apply Ee, I|intros n I; apply El, I].
    + apply Forall_app. split; apply entry_taken; assumption.
    + intros z Hz. rewrite in_block_iff by assumption. rewrite (expand_longest v l x') by assumption. rewrite Sem. unfold side_matches. split; [tauto|].
      intros ([E|Cv] & Nc); [|tauto]. exfalso. subst inc. exact (Sa n0 (or_introl eq_refl)).
Qed.
