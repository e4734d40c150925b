(** Policies with several filters, as one table. *)
From Coq Require Import Lia ZifyBool ZifyNat.
From Verif Require Import SpecIptables BaseFacts PyStrFacts TextProofs PortProofs GenProofs GenProofs2 CiscoProofs CiscoProofs2 CiscoTerm CiscoAcl WrapProofs JuniperTerm JuniperFilter
  IptText IPFacts PolicyProofs IptProofs IptLine IptPart IptCombo IptAddr IptTerm IptRule IptTermExact IptFilter IptTable.
Local Open Scope string_scope.
Local Open Scope list_scope.
Local Open Scope Z_scope.

(** ** Filters at their places *)

Definition place : Type := (list ipt_header * ipt_header * list term)%type.
Fixpoint places (before : list ipt_header) (fs : list (ipt_header * list term)) : list place :=
  match fs with [] => [] | (h, ts) :: r => (before, h, ts) :: places (before ++ [h]) r end.
Lemma places_app : forall a before b, places before (a ++ b) = places before a ++ places (before ++ map fst a) b.
Proof.
  induction a as [|[h ts] a IH]; intros before b; cbn [app places map fst]; [rewrite app_nil_r; reflexivity|]. rewrite IH, <- app_assoc. reflexivity.
Qed.
Lemma places_in fs : forall before b h ts, In (b, h, ts) (places before fs) -> exists fs1 fs2, fs = fs1 ++ (h, ts) :: fs2 /\ b = before ++ map fst fs1.
Proof.
  induction fs as [|[h0 ts0] fs IH]; intros before b h ts I; [destruct I|]. cbn [places] in I. destruct I as [E|I].
  - injection E as <- <- <-. exists [], fs. rewrite app_nil_r. auto.
  - destruct (IH _ _ _ _ I) as (f1 & f2 & -> & ->). exists ((h0, ts0) :: f1), f2. cbn [map fst app]. rewrite <- app_assoc. auto.
Qed.
Lemma places_names fs : forall before, map (fun x : place => ih_name (snd (fst x))) (places before fs) = map (fun f => ih_name (fst f)) fs.
Proof. induction fs as [|[h ts] fs IH]; intros before; [reflexivity|]. cbn [places map fst snd]. rewrite IH. reflexivity. Qed.

Definition said (w : string) (l : list ipt_header) : bool := existsb (fun x => str_in w (ih_options x)) l.
Definition after (before : list ipt_header) (st : ipt_state) : Prop :=
  is_stateful st = negb (said "nostate" before) /\ is_verbose st = negb (said "noverbose" before) /\ default_ok (is_default st).
Lemma said_snoc w l h : said w (l ++ [h]) = said w l || str_in w (ih_options h).
Proof. unfold said. rewrite existsb_app. cbn [existsb]. rewrite orb_false_r. reflexivity. Qed.
Lemma default_fold l : forall d, fold_left (fun d arg => if str_in arg ["ACCEPT"; "DROP"] then Some arg else d) l d =
  match named_default l with Some a => Some a | None => d end.
Proof.
  unfold named_default. induction l as [|x l IH]; intros d; [reflexivity|]. cbn [fold_left]. rewrite IH, (IH (if str_in x ["ACCEPT"; "DROP"] then Some x else None)).
  destruct (fold_left _ l None); [reflexivity|]. destruct (str_in x ["ACCEPT"; "DROP"]); reflexivity.
Qed.
Lemma named_ok l : default_ok (named_default l).
Proof.
  unfold named_default. assert (H : forall d, default_ok d -> default_ok (fold_left (fun d o => if str_in o ["ACCEPT"; "DROP"] then Some o else d) l d)).
  { induction l as [|x l IH]; intros d Hd; [exact Hd|]. cbn [fold_left]. apply IH. destruct (str_in x ["ACCEPT"; "DROP"]) eqn:E; [|exact Hd].
    intros a Ea. injection Ea as <-. apply str_in_spec in E. destruct E as [<-|[<-|[]]]; auto. }
  apply H. discriminate.
Qed.
Lemma translate_spec speedway today before st h terms f st' : after before st -> ipt_translate speedway today st h terms = Ok (f, st') ->
  after (before ++ [h]) st' /\ if_header f = h /\ if_cfg f = ipt_cfg_of speedway before h /\ default_ok (if_default f) /\
  (forall a, named_default (ih_options h) = Some a -> if_default f = Some a) /\
  exists ab tr, ipt_select (if_cfg f) ab tr today [] terms = Ok (if_terms f).
Proof.
  intros (A1 & A2 & A3) H. unfold ipt_translate in H. match type of H with (if ?b then _ else _) = _ => destruct b end; [discriminate H|]. cbv zeta in H.
  match type of H with (if ?b then _ else _) = _ => destruct b end; [discriminate H|].
  assert (St : (if str_in "nostate" (ih_options h) then false else is_stateful st) = negb (said "nostate" (before ++ [h]))).
  { rewrite said_snoc, A1. destruct (str_in "nostate" (ih_options h)); [rewrite orb_true_r|rewrite orb_false_r]; reflexivity. }
  assert (Sv : (if str_in "noverbose" (ih_options h) then false else is_verbose st) = negb (said "noverbose" (before ++ [h]))).
  { rewrite said_snoc, A2. destruct (str_in "noverbose" (ih_options h)); [rewrite orb_true_r|rewrite orb_false_r]; reflexivity. }
  rewrite St, Sv in H.
  set (d1 := if negb speedway && String.eqb (ih_name h) "FORWARD" then Some "DROP" else is_default st) in H.
  set (d2 := if some (ih_options h) then _ else d1) in H.
  assert (D1 : default_ok d1) by (unfold d1; destruct (_ && _); [intros a E; injection E as <-; auto|exact A3]).
  assert (D2 : default_ok d2).
  { unfold d2. destruct (some (ih_options h)); [|exact D1]. rewrite default_fold. pose proof (named_ok (ih_name h :: ih_options h)) as N. destruct (named_default _); [exact N|exact D1]. }
  assert (D3 : forall a, named_default (ih_options h) = Some a -> d2 = Some a).
  { intros a E. unfold d2. destruct (ih_options h) as [|o l] eqn:El; [discriminate E|]. cbn [some]. cbn [fold_left]. rewrite <- El in *.
    change (fold_left (fun d arg => if str_in arg ["ACCEPT"; "DROP"] then Some arg else d) l (if str_in o ["ACCEPT"; "DROP"] then Some o else if str_in (ih_name h) ["ACCEPT"; "DROP"] then Some (ih_name h) else d1))
      with (fold_left (fun d arg => if str_in arg ["ACCEPT"; "DROP"] then Some arg else d) (o :: l) (if str_in (ih_name h) ["ACCEPT"; "DROP"] then Some (ih_name h) else d1)).
    rewrite <- El, default_fold, E. reflexivity. }
  fold (said "nostate" (before ++ [h])) in H.
  destruct (ipt_select _ _ _ _ _ _) as [ts|e] eqn:Es; [|discriminate H]. cbn [bind] in H.
  assert (E1 : mkIptFilter h (mkIpt speedway (ih_name h) (if str_in "inet6" (ih_options h) then V6 else V4) (negb (said "nostate" (before ++ [h]))) (negb (said "noverbose" (before ++ [h])))) d2 ts = f
             /\ mkIptState d2 (negb (said "nostate" (before ++ [h]))) (negb (said "noverbose" (before ++ [h]))) = st') by (apply ok_inj in H; inversion H; auto).
  destruct E1 as (<- & <-). cbn [if_header if_cfg if_default if_terms]. split; [repeat split; assumption|]. split; [reflexivity|]. split; [reflexivity|]. split; [exact D2|]. split; [exact D3|].
  eexists. eexists. exact Es.
Qed.
Definition good_filter (speedway : bool) (today : Z) (x : place) (f : ipt_filter) : Prop :=
  let '(before, h, terms) := x in
  if_header f = h /\ if_cfg f = ipt_cfg_of speedway before h /\ default_ok (if_default f) /\ (forall a, named_default (ih_options h) = Some a -> if_default f = Some a) /\
  exists ab tr, ipt_select (if_cfg f) ab tr today [] terms = Ok (if_terms f).
Lemma filters_spec speedway today : forall fs before st filters, after before st -> ipt_filters speedway today st fs = Ok filters ->
  Forall2 (good_filter speedway today) (places before fs) filters.
Proof.
  induction fs as [|[h ts] fs IH]; intros before st filters A H; cbn [ipt_filters places] in *; [apply ok_inj in H; subst; constructor|].
  destruct (ipt_translate _ _ _ _ _) as [[f st']|e] eqn:E; [|discriminate H]. cbn [bind] in H. destruct (ipt_filters _ _ _ _) as [r|e] eqn:E2; [|discriminate H]. cbn [bind] in H. apply ok_inj in H. subst filters.
  destruct (translate_spec _ _ _ _ _ _ _ _ A E) as (A' & G). constructor; [exact G|]. eapply IH; [exact A'|exact E2].
Qed.

(** ** Shapes of filters *)

Definition good_shape (speedway : bool) (today : Z) (x : place) (s : shape) : Prop :=
  let '(before, h, terms) := x in let c := ipt_cfg_of speedway before h in
  sh_name s = ih_name h /\ head_ok s /\ Forall (block_ok c) (sh_blocks s) /\ NoDup (map fst (sh_blocks s)) /\
  (exists ts, blocks_say c ts (sh_blocks s) /\ forall p o, first_says (fun t o => decided t p o) ts o <-> first_says (ipt_rule c today p) terms o) /\
  (forall a, named_default (ih_options h) = Some a -> In (ih_name h) builtin_chains -> default_of (ih_name h) (sh_head s) = Some a).
Lemma append_inj_l a b c : (a ++ b)%string = (a ++ c)%string -> b = c.
Proof. induction a as [|x a IH]; [auto|]. cbn [append]. intros E. apply IH. congruence. Qed.
Lemma chain_of_inj c a b : chain_of c a = chain_of c b -> a = b.
Proof. unfold chain_of. intros E. apply append_inj_l in E. apply append_inj_l in E. exact E. Qed.
Lemma shapes_spec speedway today v : forall pl filters bodies, Forall2 (good_filter speedway today) pl filters -> mapM (ipt_filter_lines speedway) filters = Ok bodies ->
  (forall before h terms, In (before, h, terms) pl -> (In "inet6" (ih_options h) <-> v = V6) /\ plain_arg (ih_name h) /\ Forall (fun t => in_force today t -> ipt_term_ok (ipt_cfg_of speedway before h) t) terms) ->
  exists ss, Forall2 (good_shape speedway today) pl ss /\ reads v (concat bodies) (flat_map (shape_cmds speedway) ss).
Proof.
  intros pl filters bodies F. revert bodies. induction F as [|x f pl filters G F IH]; intros bodies H K.
  - apply ok_inj in H. subst. exists []. split; constructor.
  - apply mapM_forall2 in H. inversion H as [|? lines ? rest E R]; subst. clear H.
    assert (Hr : mapM (ipt_filter_lines speedway) filters = Ok rest).
    { clear -R. induction R as [|y l ys ls E R IH]; [reflexivity|]. cbn [mapM]. rewrite E, IH. reflexivity. }
    destruct (IH rest Hr) as (ss & S1 & S2); [intros before h terms I; apply K; right; exact I|].
    destruct x as [[before h] terms]. destruct (K before h terms (or_introl eq_refl)) as (Kv & Kn & Kt). destruct G as (G1 & G2 & G3 & G4 & ab & tr & G5).
    rewrite G2 in G5. destruct (ipt_select_spec _ _ _ _ _ _ _ Kt G5) as (Q1 & Q2 & _ & Q3).
    destruct (filter_commands speedway f lines) as (s & P1 & P2 & P3 & P4 & (names & N1 & N2 & N3) & P5 & P6); try assumption.
    { rewrite G2. reflexivity. }
    { rewrite G1, G2. reflexivity. }
    { rewrite G1. exact Kn. }
    { rewrite G2. exact Q1. }
    rewrite G2 in *. rewrite G1 in *.
    assert (Ev : ic_ver (ipt_cfg_of speedway before h) = v).
    { cbn [ipt_cfg_of ic_ver]. destruct (str_in "inet6" (ih_options h)) eqn:E6; [apply str_in_spec in E6; apply Kv in E6; congruence|]. apply str_in_false in E6. destruct v; [reflexivity|]. destruct E6. apply Kv. reflexivity. }
    rewrite Ev in P2. exists (s :: ss). split.
    + constructor; [|exact S1]. unfold good_shape. split; [exact P1|]. split; [exact P3|]. split; [exact P4|]. split.
      { rewrite N2. apply FinFun.Injective_map_NoDup; [intros a b; apply chain_of_inj|apply N3, Q2]. }
      split; [exists (if_terms f); split; [exact P5|exact Q3]|].
      intros a Ea Ib. rewrite <- P1, P6. apply str_in_spec in Ib. unfold is_builtin. rewrite P1, Ib, (G4 a Ea). reflexivity.
    + cbn [concat flat_map]. apply reads_app; assumption.
Qed.
Lemma Forall2_split_l {A B} (R : A -> B -> Prop) l1 x l2 m : Forall2 R (l1 ++ x :: l2) m -> exists m1 y m2, m = m1 ++ y :: m2 /\ Forall2 R l1 m1 /\ R x y /\ Forall2 R l2 m2.
Proof.
  revert m. induction l1 as [|a l1 IH]; intros m H; cbn [app] in H; inversion H as [|? b ? m' H1 H2]; subst.
  - exists [], b, m'. split; [reflexivity|]. split; [constructor|]. auto.
  - destruct (IH _ H2) as (m1 & y & m2 & -> & X & Y & Z). exists (b :: m1), y, m2. split; [reflexivity|]. split; [constructor; assumption|]. auto.
Qed.
Lemma shape_names speedway today pl ss : Forall2 (good_shape speedway today) pl ss -> map sh_name ss = map (fun x : place => ih_name (snd (fst x))) pl /\ Forall head_ok ss.
Proof.
  induction 1 as [|x s pl ss G F (IH1 & IH2)]; [split; [reflexivity|constructor]|]. destruct x as [[before h] terms]. destruct G as (G1 & G2 & _). cbn [map fst snd]. rewrite IH1, G1. split; [reflexivity|]. constructor; assumption.
Qed.
(** The commands of a policy. *)
Definition edge (speedway : bool) (k : nat) : list command := if speedway then repeat Skip k else [].
Lemma policy_commands speedway today v fs lines : ipt_policy speedway today fs = Ok lines -> ipt_policy_ok speedway today v fs ->
  exists ss, Forall2 (good_shape speedway today) (places [] fs) ss /\
    read_table v (join nl_text lines) = Some (edge speedway 1 ++ flat_map (shape_cmds speedway) ss ++ edge speedway 1 ++ [Skip]).
Proof.
  intros H K. unfold ipt_policy in H. destruct (ipt_filters _ _ _ _) as [filters|e] eqn:E; [|discriminate H]. cbn [bind] in H.
  destruct (mapM _ _) as [bodies|e] eqn:Eb; [|discriminate H]. cbn [bind] in H. apply ok_inj in H.
  assert (A0 : after [] ipt_start) by (split; [reflexivity|split; [reflexivity|discriminate]]).
  destruct (shapes_spec speedway today v _ _ _ (filters_spec _ _ _ _ _ _ A0 E) Eb) as (ss & S1 & S2).
  { intros before h terms I. apply places_in in I. destruct I as (f1 & f2 & Ef & Eb'). cbn [app] in Eb'.
    assert (If : In (h, terms) fs) by (rewrite Ef; apply in_or_app; right; left; reflexivity).
    split; [apply (ip_family _ _ _ _ K h terms If)|]. split; [apply (proj2 (ip_names _ _ _ _ K) h terms If)|].
    apply Forall_forall. intros t It Lt. apply (ip_terms _ _ _ _ K before h terms t); [exists f1, f2; auto|exact It|exact Lt]. }
  exists ss. split; [exact S1|]. apply reads_table; [subst lines; destruct speedway; [discriminate|]; destruct (concat bodies); discriminate|].
  subst lines. apply reads_app; [destruct speedway; [constructor; [split; reflexivity|constructor]|constructor]|]. apply reads_app; [exact S2|].
  apply reads_app; [destruct speedway; [constructor; [split; reflexivity|constructor]|constructor]|]. constructor; [split; reflexivity|constructor].
Qed.
Lemma edge_quiet speedway k : Forall quiet (edge speedway k).
Proof. unfold edge. destruct speedway; [|constructor]. apply Forall_forall. intros x I. apply repeat_spec in I. subst. exact Logic.I. Qed.

Lemma policy_decides speedway today v fs lines : ipt_policy speedway today fs = Ok lines -> ipt_policy_ok speedway today v fs ->
  exists cmds, read_table v (join nl_text lines) = Some cmds /\
    (loads builtin_chains cmds -> forall before h terms p, filter_at fs before h terms -> ipt_traffic (ipt_cfg_of speedway before h) p ->
       forall o, table_decides cmds (ih_name h) p o <-> first_says (ipt_rule (ipt_cfg_of speedway before h) today p) terms o).
Proof.
  intros H K. destruct (policy_commands speedway today v fs lines H K) as (ss & S1 & S2). eexists. split; [exact S2|]. intros L before h terms p (f1 & f2 & Ef & Eb) Tp o.
  destruct (shape_names _ _ _ _ S1) as (Nm & Hd). rewrite places_names in Nm. pose proof (proj1 (ip_names _ _ _ _ K)) as Dn. rewrite <- Nm in Dn.
  rewrite Ef, places_app in S1. cbn [places app] in S1. rewrite <- Eb in S1. destruct (Forall2_split_l _ _ _ _ _ S1) as (s1 & s & s2 & -> & _ & G & _).
  destruct G as (G1 & G2 & G3 & G4 & (ts & G5 & G6) & _). rewrite <- (G6 p o), <- G1.
  assert (If : In (h, terms) fs) by (rewrite Ef; apply in_or_app; right; left; reflexivity).
  apply (table_shape_decides speedway (ipt_cfg_of speedway before h) s1 s s2 (edge speedway 1) (edge speedway 1 ++ [Skip]) ts p); try assumption.
  - apply edge_quiet.
  - apply Forall_app. split; [apply edge_quiet|constructor; [exact I|constructor]].
  - exact (proj2 (ip_names _ _ _ _ K) h terms If).
Qed.

(** ** Loading *)

Lemma loads_app : forall a chains b, loads chains (a ++ b) <-> loads chains a /\ loads (rev (new_chains a) ++ chains) b.
Proof.
  induction a as [|x a IH]; intros chains b; [cbn [app new_chains flat_map rev loads]; tauto|]. destruct x as [|c|c w|c r]; cbn [app loads].
  - rewrite IH. reflexivity.
  - rewrite IH. unfold new_chains. cbn [flat_map app rev]. rewrite <- app_assoc. cbn [app]. tauto.
  - rewrite IH. unfold new_chains. cbn [flat_map app]. tauto.
  - rewrite IH. unfold new_chains. cbn [flat_map app]. tauto.
Qed.
Lemma loads_rules chain rs : forall chains, In chain chains -> (forall r x, In r rs -> r_target r = Some x -> x = "LOG" \/ In x verdicts) -> loads chains (map (Rule chain) rs).
Proof.
  induction rs as [|r rs IH]; intros chains I V; [exact Logic.I|]. cbn [map loads]. split; [exact I|]. split; [intros t E; destruct (V r t (or_introl eq_refl) E); auto|].
  apply IH; [exact I|]. intros r' x J. apply V. right. exact J.
Qed.
Lemma loads_blocks sp f : forall bs chains, In f chains -> NoDup (map fst bs) -> (forall b, In b bs -> ~ In (fst b) ("LOG" :: verdicts ++ chains)) ->
  (forall b r x, In b bs -> In r (snd b) -> r_target r = Some x -> x = "LOG" \/ In x verdicts) -> loads chains (flat_map (block_cmds sp f) bs).
Proof.
  induction bs as [|b bs IH]; intros chains If D N V; [exact I|]. cbn [flat_map]. apply loads_app. inversion D as [|? ? D1 D2]; subst.
  assert (En : new_chains (block_cmds sp f b) = [fst b]) by (pose proof (new_blocks sp f [b]) as X; cbn [flat_map map] in X; rewrite app_nil_r in X; exact X).
  rewrite En. cbn [rev app]. split.
  - unfold block_cmds. cbn [loads]. split; [apply N; left; reflexivity|].
    assert (Lr : loads (fst b :: chains) (map (Rule (fst b)) (snd b))) by (apply loads_rules; [left; reflexivity|intros r x; apply V; left; reflexivity]).
    assert (Lj : forall ch, In f ch -> In (fst b) ch -> loads ch [Rule f (jump_rule (fst b))]).
    { intros ch I1 I2. cbn [loads jump_rule r_target]. split; [exact I1|]. split; [|exact I]. intros t E. injection E as <-. auto. }
    destruct sp.
    + apply loads_app. split; [exact Lr|]. apply Lj; apply in_or_app; right; [right; exact If|left; reflexivity].
    + change (Rule f (jump_rule (fst b)) :: map (Rule (fst b)) (snd b)) with ([Rule f (jump_rule (fst b))] ++ map (Rule (fst b)) (snd b)). apply loads_app. split; [apply Lj; [right; exact If|left; reflexivity]|exact Lr].
  - apply IH; [right; exact If|exact D2| |intros b' r x J; apply (V b'); right; exact J].
    intros b' I X. apply (N b' (or_intror I)). destruct X as [X|X]; [left; exact X|right]. apply in_app_or in X. apply in_or_app. destruct X as [X|[X|X]]; [left; exact X| |right; exact X].
    exfalso. apply D1. rewrite X. apply in_map, I.
Qed.
Lemma loads_skips k : forall chains l, loads chains (repeat Skip k ++ l) <-> loads chains l.
Proof. induction k as [|k IH]; intros chains l; [reflexivity|]. cbn [repeat app loads]. apply IH. Qed.
Lemma loads_shape sp s : forall chains, head_ok s -> incl builtin_chains chains -> NoDup (owned s) -> (forall y, In y (owned s) -> ~ In y ("LOG" :: verdicts ++ chains)) ->
  (forall b r x, In b (sh_blocks s) -> In r (snd b) -> r_target r = Some x -> x = "LOG" \/ In x verdicts) -> loads chains (shape_cmds sp s).
Proof.
  intros chains (_ & k & Hh) Inc D N V. unfold shape_cmds. unfold owned in D, N. apply loads_app. destruct (is_builtin (sh_name s)) eqn:Eb.
  - assert (Eh : new_chains (sh_head s) = []) by (destruct Hh as [->|(a & ->)]; [rewrite <- (app_nil_r (repeat Skip k)), new_repeat; reflexivity|rewrite new_repeat; reflexivity]).
    rewrite Eh. cbn [rev app]. assert (Ib : In (sh_name s) builtin_chains) by (apply str_in_spec, Eb). split.
    + destruct Hh as [->|(a & ->)]; [rewrite <- (app_nil_r (repeat Skip k))|]; apply loads_skips; [exact I|]. cbn [loads]. auto.
    + apply loads_blocks; [apply Inc, Ib|exact D| |exact V]. intros b I. apply N. apply in_map, I.
  - assert (Eh : new_chains (sh_head s) = [sh_name s]) by (rewrite Hh, new_repeat; reflexivity). rewrite Eh. cbn [rev app]. cbn [app] in D, N. inversion D as [|? ? D1 D2]; subst. split.
    + rewrite Hh. apply loads_skips. cbn [loads]. split; [|exact I]. apply N. left. reflexivity.
    + apply loads_blocks; [left; reflexivity|exact D2| |exact V]. intros b I X. apply (N (fst b)); [right; apply in_map, I|].
      destruct X as [X|X]; [left; exact X|right]. apply in_app_or in X. apply in_or_app. destruct X as [X|[X|X]]; [left; exact X| |right; exact X].
      exfalso. apply D1. rewrite X. apply in_map, I.
Qed.
Lemma loads_shapes sp : forall ss chains, Forall head_ok ss -> incl builtin_chains chains -> NoDup (flat_map owned ss) -> (forall s y, In s ss -> In y (owned s) -> ~ In y ("LOG" :: verdicts ++ chains)) ->
  (forall s b r x, In s ss -> In b (sh_blocks s) -> In r (snd b) -> r_target r = Some x -> x = "LOG" \/ In x verdicts) -> loads chains (flat_map (shape_cmds sp) ss).
Proof.
  induction ss as [|s ss IH]; intros chains H Inc D N V; [exact I|]. cbn [flat_map]. inversion H as [|? ? H1 H2]; subst. cbn [flat_map] in D. apply loads_app. split.
  - apply loads_shape; [exact H1|exact Inc|eapply NoDup_app_l3, D|intros y Iy; apply (N s y (or_introl eq_refl) Iy)|intros b r x; apply (V s); left; reflexivity].
  - rewrite new_shape by exact H1. apply IH; [exact H2|intros x I; apply in_or_app; right; apply Inc, I|eapply NoDup_app_r2, D| |intros s' b r x J; apply (V s'); right; exact J].
    intros s' y Is Iy X. apply (N s' y (or_intror Is) Iy). destruct X as [X|X]; [left; exact X|right]. apply in_app_or in X. apply in_or_app. destruct X as [X|X]; [left; exact X|].
    apply in_app_or in X. destruct X as [X|X]; [|right; exact X]. exfalso. apply in_rev in X. apply (NoDup_app_l2 _ _ y D X). apply in_flat_map. exists s'. auto.
Qed.
Lemma get_chain c n : plain_arg (ic_filter c) -> String.get 0 (chain_of c n) = String.get 0 (ic_filter c).
Proof. intros (N & _). unfold chain_of. destruct (ic_filter c) as [|a f]; [congruence|]. reflexivity. Qed.
Lemma policy_loads speedway today v fs lines cmds : ipt_policy speedway today fs = Ok lines -> ipt_policy_ok speedway today v fs ->
  read_table v (join nl_text lines) = Some cmds ->
  (forall h ts, In (h, ts) fs -> filter_name_ok (ih_name h)) -> NoDup (map (fun f => String.get 0 (ih_name (fst f))) fs) -> loads builtin_chains cmds.
Proof.
  intros H K R Nm D. destruct (policy_commands speedway today v fs lines H K) as (ss & S1 & S2). rewrite S2 in R. apply opt_inj in R. subst cmds.
  assert (E : forall x l, loads x (edge speedway 1 ++ l) <-> loads x l) by (intros x l; unfold edge; destruct speedway; [apply (loads_skips 1)|reflexivity]).
  apply E. apply loads_app. split; [|apply E; exact I].
  assert (Own : forall x s, good_shape speedway today x s -> plain_arg (ih_name (snd (fst x))) -> filter_name_ok (ih_name (snd (fst x))) ->
     (forall y, In y (owned s) -> String.get 0 y = String.get 0 (ih_name (snd (fst x))) /\ ~ In y ("LOG" :: verdicts) /\ ~ In y builtin_chains) /\ NoDup (owned s)).
  { intros [[before h] terms] s (G1 & G2 & G3 & G4 & _) Pl (N1 & N2). cbn [fst snd] in *.
    assert (Ch : forall y, In y (map fst (sh_blocks s)) -> exists n, y = chain_of (ipt_cfg_of speedway before h) n).
    { intros y I. apply in_map_iff in I. destruct I as (b & <- & I). apply (proj1 (Forall_forall _ _) G3 b I). }
    split.
    - intros y I. unfold owned in I. apply in_app_or in I. destruct I as [I|I].
      + destruct (is_builtin (sh_name s)) eqn:Eb; [destruct I|]. destruct I as [<-|[]]. rewrite G1. split; [reflexivity|]. split; [exact N1|]. rewrite <- G1. apply str_in_false. exact Eb.
      + destruct (Ch y I) as (n & ->). split; [apply get_chain; exact Pl|]. split; [apply chain_no_verdict, chain_of_get; exact Pl|apply chain_no_builtin, chain_of_get; exact Pl].
    - unfold owned. destruct (is_builtin (sh_name s)); [exact G4|]. cbn [app]. constructor; [|exact G4]. intros I. destruct (Ch _ I) as (n & En). apply N2. rewrite <- G1, En. apply chain_of_get. exact Pl. }
  assert (Pl : forall x, In x (places [] fs) -> plain_arg (ih_name (snd (fst x))) /\ filter_name_ok (ih_name (snd (fst x)))).
  { intros [[before h] terms] I. apply places_in in I. destruct I as (f1 & f2 & Ef & _). assert (If : In (h, terms) fs) by (rewrite Ef; apply in_or_app; right; left; reflexivity).
    cbn [fst snd]. split; [apply (proj2 (ip_names _ _ _ _ K) h terms If)|apply (Nm h terms If)]. }
  assert (D' : NoDup (map (fun x : place => String.get 0 (ih_name (snd (fst x)))) (places [] fs))).
  { rewrite <- (map_map (fun x : place => ih_name (snd (fst x))) (String.get 0)), places_names, map_map. exact D. }
  clear S2 D. destruct (shape_names _ _ _ _ S1) as (_ & Hd).
  apply loads_shapes; [exact Hd|apply incl_refl| | |].
  - clear Hd. induction S1 as [|x s pl ss G F IH]; [constructor|]. cbn [flat_map map] in *. inversion D' as [|? ? D1 D2]; subst.
    destruct (Own x s G (proj1 (Pl x (or_introl eq_refl))) (proj2 (Pl x (or_introl eq_refl)))) as (O1 & O2).
    assert (IH' : NoDup (flat_map owned ss)) by (apply IH; [intros y I; apply Pl; right; exact I|exact D2]).
    assert (Ap : forall y, In y (owned s) -> ~ In y (flat_map owned ss)).
    { intros y I J. apply in_flat_map in J. destruct J as (s' & Is' & J). destruct (Forall2_in_r _ _ _ _ F Is') as (x' & Ix' & G').
      destruct (Own x' s' G' (proj1 (Pl x' (or_intror Ix'))) (proj2 (Pl x' (or_intror Ix')))) as (O1' & _).
      apply D1. apply in_map_iff. exists x'. split; [|exact Ix']. rewrite <- (proj1 (O1 y I)), (proj1 (O1' y J)). reflexivity. }
    clear -O2 IH' Ap. induction (owned s) as [|y l IHl]; [exact IH'|]. inversion O2; subst. cbn [app]. constructor.
    + intros I. apply in_app_or in I. destruct I as [I|I]; [contradiction|]. apply (Ap y (or_introl eq_refl) I).
    + apply IHl; [assumption|]. intros z I. apply Ap. right. exact I.
  - intros s y Is Iy. destruct (Forall2_in_r _ _ _ _ S1 Is) as (x & Ix & G). destruct (Own x s G (proj1 (Pl x Ix)) (proj2 (Pl x Ix))) as (O1 & _). destruct (O1 y Iy) as (_ & O2 & O3).
    intros [X|X]; [apply O2; left; exact X|]. apply in_app_or in X. destruct X as [X|X]; [apply O2; right; exact X|exact (O3 X)].
  - intros s b r x Is Ib Ir E'. destruct (Forall2_in_r _ _ _ _ S1 Is) as ([[before h] terms] & Ix & G). destruct G as (_ & _ & G3 & _). apply (proj2 (proj1 (Forall_forall _ _) G3 b Ib) r x Ir E').
Qed.

(** ** Default actions *)

Definition dstep (name : string) (d : option string) (x : command) : option string := match x with Policy c a => if String.eqb c name then Some a else d | _ => d end.
Lemma default_none name l : (forall c a, In (Policy c a) l -> c <> name) -> forall d, fold_left (dstep name) l d = d.
Proof.
  induction l as [|x l IH]; intros H d; [reflexivity|]. cbn [fold_left]. rewrite IH by (intros c a I; apply (H c a); right; exact I). destruct x as [|c|c a|c r]; try reflexivity. cbn [dstep].
  destruct (String.eqb c name) eqn:E; [|reflexivity]. apply String.eqb_eq in E. destruct (H c a (or_introl eq_refl) E).
Qed.
Lemma block_policies sp f bs c a : ~ In (Policy c a) (flat_map (block_cmds sp f) bs).
Proof.
  intros I. apply in_flat_map in I. destruct I as (b & _ & I). unfold block_cmds in I. destruct I as [I|I]; [discriminate I|].
  assert (Z : ~ In (Policy c a) (map (Rule (fst b)) (snd b))) by (intros X; apply in_map_iff in X; destruct X as (r & X & _); discriminate X).
  destruct sp; [apply in_app_or in I; destruct I as [I|[I|[]]]; [exact (Z I)|discriminate I]|destruct I as [I|I]; [discriminate I|exact (Z I)]].
Qed.
Lemma shape_policies sp s c a : head_ok s -> In (Policy c a) (shape_cmds sp s) -> c = sh_name s.
Proof.
  intros (_ & k & H) I. unfold shape_cmds in I. apply in_app_or in I. destruct I as [I|I]; [|destruct (block_policies _ _ _ _ _ I)].
  assert (Z : ~ In (Policy c a) (repeat Skip k)) by (intros X; apply repeat_spec in X; discriminate X).
  destruct (is_builtin (sh_name s)).
  - destruct H as [H|(w & H)]; rewrite H in I; [destruct (Z I)|]. apply in_app_or in I. destruct I as [I|[I|[]]]; [destruct (Z I)|]. injection I as <- <-. reflexivity.
  - rewrite H in I. apply in_app_or in I. destruct I as [I|[I|[]]]; [destruct (Z I)|discriminate I].
Qed.
Lemma edge_policies sp k c a : ~ In (Policy c a) (edge sp k).
Proof. unfold edge. destruct sp; [|intros []]. intros X. apply repeat_spec in X. discriminate X. Qed.
Lemma policy_default speedway today v fs lines cmds before h terms a : ipt_policy speedway today fs = Ok lines -> ipt_policy_ok speedway today v fs ->
  read_table v (join nl_text lines) = Some cmds -> filter_at fs before h terms -> In (ih_name h) builtin_chains -> named_default (ih_options h) = Some a ->
  default_of (ih_name h) cmds = Some a.
Proof.
  intros H K R (f1 & f2 & Ef & Eb) Ib Ea. destruct (policy_commands speedway today v fs lines H K) as (ss & S1 & S2). rewrite S2 in R. apply opt_inj in R. subst cmds.
  destruct (shape_names _ _ _ _ S1) as (Nm & Hd). rewrite places_names in Nm. pose proof (proj1 (ip_names _ _ _ _ K)) as Dn. rewrite <- Nm in Dn.
  rewrite Ef, places_app in S1. cbn [places app] in S1. rewrite <- Eb in S1. destruct (Forall2_split_l _ _ _ _ _ S1) as (s1 & s & s2 & -> & _ & G & _).
  destruct G as (G1 & G2 & _ & _ & _ & G6). specialize (G6 a Ea Ib).
  assert (Oth : forall s', In s' (s1 ++ s2) -> sh_name s' <> ih_name h).
  { intros s' I E. rewrite map_app in Dn. cbn [map] in Dn. apply NoDup_remove_2 in Dn. apply Dn. rewrite <- map_app, G1, <- E. apply in_map, I. }
  assert (Sk : forall l d, (forall s', In s' l -> sh_name s' <> ih_name h /\ head_ok s') -> fold_left (dstep (ih_name h)) (flat_map (shape_cmds speedway) l) d = d).
  { intros l d Hl. apply default_none. intros c w I. apply in_flat_map in I. destruct I as (s' & Is & I). destruct (Hl s' Is) as (X & Y). rewrite (shape_policies _ _ _ _ Y I). exact X. }
  assert (Hd' : forall s', In s' (s1 ++ s2) -> head_ok s') by (intros s' I; apply (proj1 (Forall_forall _ _) Hd); apply in_app_or in I; apply in_or_app; destruct I; [left|right; right]; assumption).
  unfold default_of in *. change (fun d x => match x with Policy c a => if String.eqb c (ih_name h) then Some a else d | _ => d end) with (dstep (ih_name h)) in *.
  rewrite !fold_left_app. rewrite (default_none (ih_name h) (edge speedway 1)) by (intros c w I; destruct (edge_policies _ _ _ _ I)).
  rewrite (default_none (ih_name h) (edge speedway 1)) by (intros c w I; destruct (edge_policies _ _ _ _ I)). cbn [fold_left dstep].
  rewrite flat_map_app, fold_left_app. rewrite (Sk s1) by (intros s' I; split; [apply Oth, in_or_app; auto|apply Hd', in_or_app; auto]). cbn [flat_map]. rewrite fold_left_app.
  rewrite (Sk s2) by (intros s' I; split; [apply Oth, in_or_app; auto|apply Hd', in_or_app; auto]).
  unfold shape_cmds. rewrite fold_left_app, (default_none (ih_name h) (flat_map _ _)) by (intros c w I; destruct (block_policies _ _ _ _ _ I)). exact G6.
Qed.

(** ** Expired terms *)

Definition unexpired (today : Z) (ts : list term) : list term := filter (fun t => negb (expired today t)) ts.
Lemma ipt_select_expired c ab tr today : forall terms seen seen' ts, incl seen' seen ->
  ipt_select c ab tr today seen terms = Ok ts -> ipt_select c ab tr today seen' (unexpired today terms) = Ok ts.
Proof.
  induction terms as [|t terms IH]; intros seen seen' ts Hi H; [exact H|]. cbn [ipt_select] in H.
  destruct (fix_term_length _ _ _ _ _) as [n|e] eqn:En; [|discriminate H]. cbn [bind] in H.
  destruct (str_in n seen) eqn:Es; [discriminate H|]. destruct (fix_high_ports _ _ _ _) as [t'|e] eqn:Ef; [|discriminate H]. cbn [bind] in H.
  assert (Ee : expired today t' = expired today t) by (unfold expired; rewrite (fix_high_expiration _ _ _ _ _ Ef); reflexivity).
  unfold unexpired. cbn [filter]. rewrite Ee in H. destruct (expired today t) eqn:X; cbn [negb].
  - apply (IH (n :: seen)); [|exact H]. intros y I. right. apply Hi, I.
  - cbn [ipt_select]. rewrite En. cbn [bind].
    assert (Es' : str_in n seen' = false) by (apply str_in_false; intros I; apply str_in_false in Es; apply Es, Hi, I).
    rewrite Es', Ef. cbn [bind]. rewrite Ee. destruct (term_protocols _ _) as [ps|e]; [|discriminate H]. cbn [bind] in *.
    destruct (ipt_select _ _ _ _ _ terms) as [r|e] eqn:Er; [|discriminate H]. cbn [bind] in H.
    fold (unexpired today terms). rewrite (IH (n :: seen) (n :: seen') r); [exact H| |exact Er]. intros y [->|I]; [left; reflexivity|right; apply Hi, I].
Qed.
Lemma ipt_filters_expired speedway today : forall fs st r, ipt_filters speedway today st fs = Ok r ->
  ipt_filters speedway today st (map (fun f => (fst f, unexpired today (snd f))) fs) = Ok r.
Proof.
  induction fs as [|[h ts] fs IH]; intros st r H; [exact H|]. cbn [map fst snd ipt_filters] in *.
  destruct (ipt_translate _ _ _ _ _) as [[f st']|e] eqn:E; [|discriminate H]. cbn [bind] in H. destruct (ipt_filters _ _ _ _) as [r'|e] eqn:E2; [|discriminate H].
  assert (E' : ipt_translate speedway today st h (unexpired today ts) = Ok (f, st')).
  { unfold ipt_translate in *. match type of E with (if ?b then _ else _) = _ => destruct b end; [discriminate E|]. cbv zeta in *.
    match type of E with (if ?b then _ else _) = _ => destruct b end; [discriminate E|].
    destruct (ipt_select _ _ _ _ _ ts) as [l|e] eqn:Es in E; [|discriminate E]. rewrite (ipt_select_expired _ _ _ _ _ _ [] _ (incl_refl _) Es). exact E. }
  rewrite E'. cbn [bind]. rewrite (IH _ _ E2). exact H.
Qed.
Lemma ipt_policy_expired speedway today fs lines : ipt_policy speedway today fs = Ok lines ->
  ipt_policy speedway today (map (fun f => (fst f, filter (fun t => negb (expired today t)) (snd f))) fs) = Ok lines.
Proof.
  intros H. unfold ipt_policy in *. destruct (ipt_filters _ _ _ _) as [r|e] eqn:E; [|discriminate H]. pose proof (ipt_filters_expired _ _ _ _ _ E) as E'. unfold unexpired in E'. rewrite E'. exact H.
Qed.

(** ** Port batches *)

Lemma port_batches letter ports : letter = "s" \/ letter = "d" -> (forall r, In r ports -> port_ok r) ->
  exists chunks, Forall2 (batch_reads letter) (port_statements letter ports) chunks /\ concat chunks = ports.
Proof.
  intros Sd P. destruct (port_statements_spec letter ports) as (chunks & E & C & S & _). exists chunks. split; [|exact C]. rewrite E. subst ports. clear E.
  induction chunks as [|ch chunks IH]; [constructor|]. inversion S as [|? ? (N & L) S']; subst. cbn [concat] in P. cbn [map]. constructor; [|apply IH; [intros r I; apply P, in_or_app; right; exact I|exact S']].
  assert (R : forall r, In r ch -> port_ok r) by (intros r I; apply P, in_or_app; left; exact I).
  destruct (Nat.le_gt_cases 2 (List.length ch)) as [Ge|Lt].
  - right. exists (join "," (port_args ch)). split; [|apply port_ranges_args; assumption]. rewrite render_long by exact Ge.
    assert (W : words (join "," (port_args ch)) [join "," (port_args ch)]).
    { apply words_plain, join_plain; [destruct ch; [congruence|discriminate]|]. intros w I. unfold port_args in I. apply in_map_iff in I. destruct I as (r & <- & I). apply range_plain, R, I. }
    destruct Sd as [-> | ->].
    + exact (proj1 (proj2 (words_cat "-m multiport" _ ["-m"; "multiport"] _ (words_simple "-m multiport" eq_refl) (words_cat "--sports" _ ["--sports"] _ (words_simple "--sports" eq_refl) W)))).
    + exact (proj1 (proj2 (words_cat "-m multiport" _ ["-m"; "multiport"] _ (words_simple "-m multiport" eq_refl) (words_cat "--dports" _ ["--dports"] _ (words_simple "--dports" eq_refl) W)))).
  - destruct ch as [|r [|r' ch]]; [congruence| |cbn in Lt; lia]. left. exists r, (range_arg (fst r) (snd r)). split; [reflexivity|].
    assert (Pr : port_ok r) by (apply R; left; reflexivity). split; [|apply port_range_arg, Pr].
    assert (W : words (range_arg (fst r) (snd r)) [range_arg (fst r) (snd r)]) by (apply words_plain, range_plain; apply Pr).
    destruct Sd as [-> | ->].
    + exact (proj1 (proj2 (words_cat "--sport" _ ["--sport"] _ (words_simple "--sport" eq_refl) W))).
    + exact (proj1 (proj2 (words_cat "--dport" _ ["--dport"] _ (words_simple "--dport" eq_refl) W))).
Qed.
