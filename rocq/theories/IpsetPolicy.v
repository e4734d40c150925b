(** Address sets of a whole policy: every set is made once, and the conditions of every rule say
    what its term says. *)
From Coq Require Import Lia ZifyBool ZifyNat.
From Verif Require Import SpecIpset BaseFacts PyStrFacts IPFacts GenProofs IptProofs IptAddr GceProofs CiscoProofs IpsetProofs.
Local Open Scope string_scope.
Local Open Scope list_scope.
Local Open Scope Z_scope.

Lemma nodup_apart {A} (l m : list A) : NoDup (l ++ m) -> forall x, In x l -> In x m -> False.
Proof.
  induction l as [|y l IH]; intros N x I J; [destruct I|]. cbn [app] in N. apply NoDup_cons_iff in N. destruct N as (N1 & N2). destruct I as [->|I]; [apply N1, in_or_app; right; exact J|exact (IH N2 x I J)].
Qed.
Definition entry_set (v : ver) (e : option (string * list net)) : list aset :=
  match e with Some (n, l) => [mkAset v n l] | None => [] end.
Lemma side_set_ok v name dir inc exc r : dir_ok dir -> forall_char (fun c => negb (is_ws c)) name = true -> name <> "" -> String.get 0 name <> Some "-"%char ->
  side_good v name dir inc exc r -> forall s, In s (entry_set v (snd r)) -> aset_ok s /\ as_ver s = v /\ as_name s = ipset_name v name dir.
Proof.
  intros D W N G (l & Hl & _ & [(-> & _)|(-> & Nd & Ps)]) s I; [destruct I|]. destruct I as [<-|[]]. cbn [as_ver as_name]. split; [|auto].
  split; [apply ipset_name_word; assumption|]. split; [apply ipset_name_ok; assumption|]. split; [exact Nd|]. intros n I. destruct (Hl n I). auto.
Qed.
Lemma entry_lines ex v e S : (forall s, In s (entry_set v e) -> aset_ok s /\ ~ In (as_name s) (map ks_name S)) ->
  ks_run S (set_lines ex v e) = Some (S ++ map kset_of (entry_set v e)).
Proof.
  destruct e as [[n l]|]; intros H; cbn [entry_set map]; [|rewrite app_nil_r; reflexivity]. destruct (H _ (or_introl eq_refl)) as (O & N).
  exact (set_run ex (mkAset v n l) S O N).
Qed.

(** The sides of a term. *)
Definition sides (v : ver) (t : term) (a b : list net * option (string * list net)) : Prop :=
  set_side v (t_name t) "src" (t_source_address t) (t_source_address_exclude t) = Ok a /\
  set_side v (t_name t) "dst" (t_destination_address t) (t_destination_address_exclude t) = Ok b /\
  side_good v (t_name t) "src" (t_source_address t) (t_source_address_exclude t) a /\
  side_good v (t_name t) "dst" (t_destination_address t) (t_destination_address_exclude t) b.
Lemma sides_exist v t : set_term_ok t -> exists a b, sides v t a b.
Proof.
  intros (_ & _ & _ & S & D). destruct (set_side_spec v (t_name t) "src" _ _ S) as (a & Ea & Ga), (set_side_spec v (t_name t) "dst" _ _ D) as (b & Eb & Gb).
  exists a, b. unfold sides. auto.
Qed.
Definition term_sets (v : ver) (a b : list net * option (string * list net)) : list aset := entry_set v (snd a) ++ entry_set v (snd b).
Lemma term_sets_ok v t a b : set_term_ok t -> sides v t a b -> forall s, In s (term_sets v a b) ->
  aset_ok s /\ as_ver s = v /\ exists d, dir_ok d /\ as_name s = ipset_name v (t_name t) d.
Proof.
  intros (W & N & G & _) (_ & _ & Ga & Gb) s I. apply in_app_or in I. destruct I as [I|I].
  - destruct (side_set_ok v _ "src" _ _ a (or_introl eq_refl) W N G Ga s I) as (A & B & C). split; [exact A|]. split; [exact B|]. exists "src". split; [left; reflexivity|exact C].
  - destruct (side_set_ok v _ "dst" _ _ b (or_intror eq_refl) W N G Gb s I) as (A & B & C). split; [exact A|]. split; [exact B|]. exists "dst". split; [right; reflexivity|exact C].
Qed.
Lemma set_config_eq ex v t a b : sides v t a b -> set_config ex v t = Ok (set_lines ex v (snd a) ++ set_lines ex v (snd b)).
Proof. intros (E1 & E2 & _). unfold set_config. rewrite E1. destruct a as [a1 a2]. cbn [bind]. rewrite E2. destruct b as [b1 b2]. reflexivity. Qed.
Lemma src_not_dst v n : ipset_name v n "src" <> ipset_name v n "dst".
Proof. intros E. apply ipset_name_inj in E; [|left; reflexivity|right; reflexivity]. destruct E as (_ & E & _). discriminate E. Qed.
Lemma side_entry v name dir inc exc r : side_good v name dir inc exc r -> snd r = None \/ exists l, snd r = Some (ipset_name v name dir, l).
Proof. intros (l & _ & _ & [(-> & _)|(-> & _)]); [left; reflexivity|right; exists l; reflexivity]. Qed.
Lemma term_names_nodup v t a b : sides v t a b -> NoDup (map as_name (term_sets v a b)).
Proof.
  intros (_ & _ & Ga & Gb). unfold term_sets. destruct (side_entry _ _ _ _ _ _ Ga) as [->|(la & ->)], (side_entry _ _ _ _ _ _ Gb) as [->|(lb & ->)]; cbn; repeat constructor; try (intros []; fail).
  intros [E|[]]. exact (src_not_dst v (t_name t) (eq_sym E)).
Qed.
Lemma term_run ex v t a b S : set_term_ok t -> sides v t a b -> (forall s, In s (term_sets v a b) -> ~ In (as_name s) (map ks_name S)) ->
  ks_run S (set_lines ex v (snd a) ++ set_lines ex v (snd b)) = Some (S ++ map kset_of (term_sets v a b)).
Proof.
  intros O Sd N. pose proof (term_sets_ok v t a b O Sd) as K. pose proof (term_names_nodup v t a b Sd) as Nd. unfold term_sets in *. rewrite ks_run_app.
  rewrite entry_lines.
  - rewrite entry_lines; [rewrite map_app, app_assoc; reflexivity|].
    intros s I. split; [apply (K s), in_or_app; right; exact I|]. rewrite map_app. intros J. apply in_app_or in J. destruct J as [J|J].
    + exact (N s (in_or_app _ _ _ (or_intror I)) J).
    + rewrite map_map in J. rewrite map_app in Nd. exact (nodup_apart _ _ Nd _ J (in_map as_name _ s I)).
  - intros s I. split; [apply (K s), in_or_app; left; exact I|]. apply N, in_or_app. left. exact I.
Qed.

(** ** All terms *)

Inductive all_sides : list (ver * term) -> list aset -> Prop :=
| as_nil : all_sides [] []
| as_cons v t a b ts L : sides v t a b -> all_sides ts L -> all_sides ((v, t) :: ts) (term_sets v a b ++ L).
Lemma all_sides_exist ts : (forall v t, In (v, t) ts -> set_term_ok t) -> exists L, all_sides ts L.
Proof.
  induction ts as [|[v t] ts IH]; intros H; [exists []; constructor|]. destruct (IH ltac:(intros w u I; apply (H w u); right; exact I)) as (L & A).
  destruct (sides_exist v t (H v t (or_introl eq_refl))) as (a & b & S). exists (term_sets v a b ++ L). constructor; assumption.
Qed.
Lemma all_sides_names ts L : (forall v t, In (v, t) ts -> set_term_ok t) -> all_sides ts L -> forall s, In s L ->
  exists v t d, In (v, t) ts /\ dir_ok d /\ as_name s = ipset_name v (t_name t) d.
Proof.
  intros H A. induction A as [|v t a b ts L S A IH]; intros s I; [destruct I|]. apply in_app_or in I. destruct I as [I|I].
  - destruct (term_sets_ok v t a b (H v t (or_introl eq_refl)) S s I) as (_ & _ & d & D & E). exists v, t, d. split; [left; reflexivity|auto].
  - destruct (IH ltac:(intros w u J; apply (H w u); right; exact J) s I) as (w & u & d & J & D & E). exists w, u, d. split; [right; exact J|auto].
Qed.
Definition key (vt : ver * term) : ver * string := (fst vt, name_start (fst vt) (t_name (snd vt))).
Lemma all_run ex : forall ts L, (forall v t, In (v, t) ts -> set_term_ok t) -> NoDup (map key ts) -> all_sides ts L ->
  forall S, (forall s, In s L -> ~ In (as_name s) (map ks_name S)) ->
  exists ls, set_configs ex ts = Ok ls /\ ks_run S ls = Some (S ++ map kset_of L) /\ NoDup (map as_name L).
Proof.
  intros ts L H Nd A. induction A as [|v t a b ts L Sd A IH]; intros S N.
  - exists []. split; [reflexivity|]. split; [cbn; rewrite app_nil_r; reflexivity|constructor].
  - assert (H' : forall w u, In (w, u) ts -> set_term_ok u) by (intros w u I; apply (H w u); right; exact I). pose proof (H v t (or_introl eq_refl)) as Ot.
    cbn [map] in Nd. inversion Nd as [|z w Nk Nr]; subst.
    assert (X : forall s s', In s (term_sets v a b) -> In s' L -> as_name s <> as_name s').
    { intros s s' I I' E. destruct (term_sets_ok v t a b Ot Sd s I) as (_ & _ & d & D & En). destruct (all_sides_names ts L H' A s' I') as (v' & t' & d' & J & D' & En').
      rewrite En, En' in E. apply ipset_name_inj in E; [|exact D|exact D']. destruct E as (-> & _ & E). apply Nk. apply in_map_iff. exists (v', t'). split; [|exact J]. unfold key. cbn [fst snd]. congruence. }
    destruct (IH H' Nr (S ++ map kset_of (term_sets v a b))) as (ls & El & Rl & Nl).
    { intros s I J. rewrite map_app, map_map in J. apply in_app_or in J. destruct J as [J|J]; [exact (N s (in_or_app _ _ _ (or_intror I)) J)|].
      apply in_map_iff in J. destruct J as (s0 & E & J). cbn [kset_of ks_name] in E. exact (X s0 s J I E). }
    exists ((set_lines ex v (snd a) ++ set_lines ex v (snd b)) ++ ls). split; [|split].
    + cbn [set_configs]. rewrite (set_config_eq ex v t a b Sd). cbn [bind]. rewrite El. reflexivity.
    + rewrite ks_run_app, (term_run ex v t a b S Ot Sd); [rewrite Rl, map_app, app_assoc; reflexivity|]. intros s I. apply N, in_or_app. left. exact I.
    + rewrite map_app. pose proof (term_names_nodup v t a b Sd) as Na. revert Na. assert (Y : forall n, In n (map as_name (term_sets v a b)) -> ~ In n (map as_name L)).
      { intros n I J. apply in_map_iff in I, J. destruct I as (s & E & I), J as (s' & E' & J). apply (X s s' I J). congruence. }
      revert Y. generalize (map as_name (term_sets v a b)). intros B. induction B as [|y B IHB]; intros Y Na; [exact Nl|]. inversion Na as [|z w N1 N2]; subst. cbn [app]. constructor.
      * intros I. apply in_app_or in I. destruct I as [I|I]; [exact (N1 I)|exact (Y y (or_introl eq_refl) I)].
      * apply IHB; [intros n I; apply Y; right; exact I|exact N2].
Qed.
Lemma section_run ex ts L : (forall v t, In (v, t) ts -> set_term_ok t) -> NoDup (map key ts) -> all_sides ts L ->
  exists ls, set_section ex ts = Ok ls /\ ks_run [] ls = Some (map kset_of L) /\ NoDup (map as_name L).
Proof.
  intros H N A. destruct (all_run ex ts L H N A [] ltac:(intros s _ [])) as (ls & E & R & Nd). exists (["# begin:ipset-rules"] ++ ls ++ ["# end:ipset-rules"]).
  unfold set_section. rewrite E. split; [reflexivity|]. split; [|exact Nd]. rewrite ks_run_app. change (ks_run [] ["# begin:ipset-rules"]) with (Some (@nil kset)). cbv iota beta.
  rewrite ks_run_app, R. reflexivity.
Qed.

(** ** Conditions *)

Lemma set_member L s x : NoDup (map as_name L) -> In s L -> (forall n, In n (as_nets s) -> valid n) -> on_net x ->
  ks_has (map kset_of L) (as_name s) x <-> covered (as_nets s) x.
Proof.
  intros N I V O. split.
  - intros (k & a & Ik & En & Ia & R). apply in_map_iff in Ik. destruct Ik as (s' & <- & Is'). cbn [kset_of ks_name ks_members] in *.
    assert (s' = s).
    { clear - N I Is' En. induction L as [|y L IH]; [destruct I|]. cbn [map] in N. inversion N as [|z w N1 N2]; subst. destruct I as [->|I], Is' as [->|J]; [reflexivity| | |exact (IH N2 I J)].
      - destruct N1. rewrite <- En. apply in_map, J.
      - destruct N1. rewrite En. apply in_map, I. }
    subst s'. apply in_map_iff in Ia. destruct Ia as (n & <- & J). exists n. split; [exact J|]. apply (range_text n x (V n J) O), R.
  - intros (n & J & C). exists (kset_of s), (prefixlen_text n). split; [apply in_map, I|]. split; [reflexivity|]. split; [apply in_map, J|]. apply (range_text n x (V n J) O), C.
Qed.
Lemma all_eq v n : valid n -> nver n = v -> net_eqb n (all_ips v) = true -> forall x, of_family v x -> covers n x.
Proof.
  intros V E Q [w x] (Fx & Rx). cbn [fst snd] in *. subst w. exact (covers_all v n x V Q Rx).
Qed.
Lemma side_conditions L v name dir flag inc exc r : dir_ok dir -> word flag -> flag <> "-m" -> forall_char (fun c => negb (is_ws c)) name = true ->
  NoDup (map as_name L) -> side_good v name dir inc exc r -> (forall s, In s (entry_set v (snd r)) -> In s L) -> forall x, of_family v x ->
  (exists a, In a (fst r) /\ condition_says (map kset_of L) flag dir (set_statement v flag dir (snd r) a) x) <-> side_matches inc exc x.
Proof.
  intros D Wf Nf Wn N (l & Hl & Cl & K) Sub x F. assert (On : on_net x) by (destruct F as (E & R); unfold on_net; rewrite E; exact R). rewrite <- (Cl x F).
  destruct K as [(-> & One)|(-> & _ & _)]; cbn [fst snd] in *.
  - split.
    + intros (a & Ia & C). destruct (Hl a Ia) as (Va & Ea). exists a. split; [exact Ia|]. unfold set_statement in C. destruct (net_eqb a (all_ips v)) eqn:Q; [exact (all_eq v a Va Ea Q x F)|].
      assert (Sp : split_ws (flag ++ " " ++ prefixlen_text a)%string = [flag; prefixlen_text a]) by (rewrite CiscoProofs.split_ws_space, Wf, (prefix_split a Va); reflexivity).
      destruct C as [C|[(b & C & R)|(b & C & _)]]; rewrite Sp in C; try discriminate C. injection C as <-. apply (range_text a x Va On), R.
    + intros (a & Ia & C). exists a. split; [exact Ia|]. destruct (Hl a Ia) as (Va & Ea). unfold set_statement. destruct (net_eqb a (all_ips v)) eqn:Q; [left; reflexivity|].
      right. left. exists (prefixlen_text a). split; [rewrite CiscoProofs.split_ws_space, Wf, (prefix_split a Va); reflexivity|]. apply (range_text a x Va On), C.
  - set (n := ipset_name v name dir) in *. assert (Wd : word dir) by (destruct D as [-> | ->]; reflexivity).
    assert (W : word n) by (apply ipset_name_word; assumption).
    assert (Ev : net_eqb (all_ips v) (all_ips v) = true) by (destruct v; reflexivity).
    assert (Sp : split_ws ("-m set --match-set " ++ n ++ " " ++ dir)%string = ["-m"; "set"; "--match-set"; n; dir]).
    { change ("-m set --match-set " ++ n ++ " " ++ dir)%string with (join " " ["-m"; "set"; "--match-set"; n; dir]). rewrite CiscoProofs.split_ws_join. cbn [map concat]. rewrite W, Wd. reflexivity. }
    pose proof (set_member L (mkAset v n l) x N (Sub _ (or_introl eq_refl)) (fun m I => proj1 (Hl m I)) On) as M. cbn [as_name as_nets] in M. rewrite <- M. split.
    + intros (a & [<-|[]] & C). unfold set_statement in C. rewrite Ev in C. destruct C as [C|[(b & C & _)|(b & C & R)]]; rewrite Sp in C; try discriminate C. injection C as <-. exact R.
    + intros R. exists (all_ips v). split; [left; reflexivity|]. unfold set_statement. rewrite Ev. right. right. exists n. split; [exact Sp|exact R].
Qed.
Lemma all_sides_in ts L v t : all_sides ts L -> In (v, t) ts -> exists a b, sides v t a b /\ forall s, In s (term_sets v a b) -> In s L.
Proof.
  intros A. induction A as [|w u a b ts L S A IH]; intros I; [destruct I|]. destruct I as [E|I].
  - injection E as -> ->. exists a, b. split; [exact S|]. intros s J. apply in_or_app. left. exact J.
  - destruct (IH I) as (a' & b' & S' & K). exists a', b'. split; [exact S'|]. intros s J. apply in_or_app. right. apply K, J.
Qed.
Lemma sets_say ex ts : (forall v t, In (v, t) ts -> set_term_ok t) -> NoDup (map key ts) ->
  exists ls sets, set_section ex ts = Ok ls /\ ks_run [] ls = Some sets /\
    forall v t, In (v, t) ts -> exists conds, set_conditions v t = Ok conds /\
      forall x y, of_family v x -> of_family v y ->
        (exists s d, In (s, d) conds /\ condition_says sets "-s" "src" s x /\ condition_says sets "-d" "dst" d y) <->
        side_matches (t_source_address t) (t_source_address_exclude t) x /\ side_matches (t_destination_address t) (t_destination_address_exclude t) y.
Proof.
  intros H N. destruct (all_sides_exist ts H) as (L & A). destruct (section_run ex ts L H N A) as (ls & E & R & Nd). exists ls, (map kset_of L). split; [exact E|]. split; [exact R|].
  intros v t I. destruct (all_sides_in ts L v t A I) as (a & b & (E1 & E2 & Ga & Gb) & Sub). destruct (H v t I) as (W & _).
  unfold set_conditions. rewrite E1. destruct a as [a1 a2]. cbn [bind]. rewrite E2. destruct b as [b1 b2]. cbn [bind]. eexists. split; [reflexivity|]. intros x y Fx Fy.
  rewrite <- (side_conditions L v (t_name t) "src" "-s" _ _ (a1, a2) (or_introl eq_refl) eq_refl ltac:(discriminate) W Nd Ga (fun s J => Sub s (in_or_app _ _ _ (or_introl J))) x Fx).
  rewrite <- (side_conditions L v (t_name t) "dst" "-d" _ _ (b1, b2) (or_intror eq_refl) eq_refl ltac:(discriminate) W Nd Gb (fun s J => Sub s (in_or_app _ _ _ (or_intror J))) y Fy).
  cbn [fst snd]. split.
  - intros (s & d & J & Cs & Cd). apply in_flat_map in J. destruct J as (n & Jn & J). apply in_map_iff in J. destruct J as (m & Em & Jm). injection Em as <- <-. split; eauto.
  - intros ((n & Jn & Cs) & (m & Jm & Cd)). do 2 eexists. split; [|split; [exact Cs|exact Cd]]. apply in_flat_map. exists n. split; [exact Jn|]. apply in_map_iff. exists m. auto.
Qed.
