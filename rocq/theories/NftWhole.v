(** Whole nftables policies: headers, entries, the dictionary, the decision. *)
From Coq Require Import Lia ZifyBool ZifyNat.
From Verif Require Import SpecNft BaseFacts PyStrFacts TextProofs CiscoProofs CiscoProofs2 CiscoTerm CiscoAcl CiscoEst GenProofs GenProofs2 IPFacts ExcludeProofs NftText NftTerm NftRule NftRuleset NftChains NftPolicy.
From Verif Require WrapProofs.
Local Open Scope string_scope.
Local Open Scope list_scope.
Local Open Scope Z_scope.

(** ** Headers *)

Lemma header_loop_keeps opts : forall i r, header_loop opts i = Ok r ->
  ni_af r = ni_af i /\ ni_hook r = ni_hook i /\ ni_priority r = ni_priority i /\ ni_policy r = ni_policy i /\ ni_verbose r = ni_verbose i /\
  (ni_override r = ni_override i \/ ni_override r = Some "bridge").
Proof.
  assert (G : forall n opts, (List.length opts <= n)%nat -> forall i r, header_loop opts i = Ok r ->
    ni_af r = ni_af i /\ ni_hook r = ni_hook i /\ ni_priority r = ni_priority i /\ ni_policy r = ni_policy i /\ ni_verbose r = ni_verbose i /\
    (ni_override r = ni_override i \/ ni_override r = Some "bridge")).
  { induction n as [|n IH]; intros [|o rest] L i r H; cbn [List.length] in L; try lia; cbn [header_loop] in H.
    - apply ok_inj in H. subst. auto 10.
    - apply ok_inj in H. subst. auto 10.
    - destruct (String.eqb o "base-chain-name"); [destruct rest as [|x rest]; [discriminate H|]; apply IH in H; [exact H|cbn in L; lia]|].
      destruct (String.eqb o "table-name"); [destruct rest as [|x rest]; [discriminate H|]; apply IH in H; [exact H|cbn in L; lia]|].
      destruct (String.eqb o "as-regular-chain"); [apply IH in H; [exact H|lia]|].
      destruct (String.eqb o "address-family-override").
      + destruct rest as [|x rest]; [discriminate H|]. destruct (String.eqb x "bridge") eqn:E; [|discriminate H]. apply String.eqb_eq in E. subst x.
        apply IH in H; [|cbn in L; lia]. cbn [ni_af ni_hook ni_priority ni_policy ni_verbose ni_override] in H.
        destruct H as (A & B & C & D & E & [F|F]); auto 10.
      + apply IH in H; [exact H|lia]. }
  exact (G _ opts (le_n _)).
Qed.
Record info_good (i : nft_info) : Prop := {
  ig_family : In (fst (header_table i)) ["ip"; "ip6"; "inet"; "bridge"];
  ig_hook : In (ni_hook i) ["forward"; "input"; "output"];
  ig_priority : isdigit (ni_priority i) = true;
  ig_policy : In (ni_policy i) ["accept"; "drop"] }.
Lemma header_spec opts i : process_header opts = Ok i ->
  exists af hook rest priority, opts = af :: hook :: rest /\
    ((af = "inet" /\ ni_af i = "ip") \/ (af = "inet6" /\ ni_af i = "ip6") \/ (af = "mixed" /\ ni_af i = "inet")) /\
    ni_hook i = lower hook /\ In (lower hook) ["forward"; "input"; "output"] /\
    ni_policy i = (if str_in "ACCEPT" opts then "accept" else "drop") /\
    ni_priority i = priority /\ (filter isdigit opts = [priority] \/ filter isdigit opts = [] /\ priority = "0") /\
    ni_verbose i = negb (str_in "noverbose" opts) /\ (ni_override i = None \/ ni_override i = Some "bridge").
Proof.
  unfold process_header. destruct opts as [|af [|hook rest]]; try discriminate. set (opts := af :: hook :: rest). intros H.
  destruct (assoc af [("inet", "ip"); ("inet6", "ip6"); ("mixed", "inet")]) as [family|] eqn:Ea; [|discriminate H].
  assert (A : (af = "inet" /\ family = "ip") \/ (af = "inet6" /\ family = "ip6") \/ (af = "mixed" /\ family = "inet")).
  { cbn [assoc] in Ea. destruct (String.eqb af "inet") eqn:E1; [apply String.eqb_eq in E1; left; split; congruence|].
    destruct (String.eqb af "inet6") eqn:E2; [apply String.eqb_eq in E2; right; left; split; congruence|].
    destruct (String.eqb af "mixed") eqn:E3; [apply String.eqb_eq in E3; right; right; split; congruence|]. discriminate Ea. }
  cbv zeta in H. destruct (negb (str_in (lower hook) ["forward"; "input"; "output"])) eqn:Eh; [discriminate H|]. apply negb_false_iff, str_in_iff in Eh.
  destruct (filter isdigit opts) as [|n [|m l]] eqn:Ef; [| |discriminate H]; cbn [bind] in H; apply header_loop_keeps in H;
    cbn [ni_af ni_hook ni_priority ni_policy ni_verbose ni_override] in H; destruct H as (H1 & H2 & H3 & H4 & H5 & H6).
  - exists af, hook, rest, "0". fold opts. rewrite H1, H2, H3, H4, H5. auto 15.
  - exists af, hook, rest, n. fold opts. rewrite H1, H2, H3, H4, H5. auto 15.
Qed.
Lemma header_good opts i : process_header opts = Ok i -> info_good i.
Proof.
  intros H. destruct (header_spec opts i H) as (af & hook & rest & pr & E & A & B & C & D & F & G & K & L). constructor.
  - unfold header_table. cbn [fst]. destruct L as [-> | ->]; [|cbn; auto]. destruct A as [(_ & ->)|[(_ & ->)|(_ & ->)]]; cbn; auto.
  - rewrite B. exact C.
  - rewrite F. destruct G as [G|(_ & ->)]; [|reflexivity]. assert (I : In pr (filter isdigit opts)) by (rewrite G; left; reflexivity). apply filter_In in I. apply I.
  - rewrite D. destruct (str_in "ACCEPT" opts); cbn; auto.
Qed.

(** ** One header: the blocks it writes *)

Definition table_of (e : nft_entry) : string * string := (entry_family e, ni_table (ne_info e)).
(** The blocks of an entry, for terms that are rendered as its chains. *)
Record entry_blocks (fams : list ver) (e : nft_entry) (ts : list term) (bs : list block) : Prop := {
  eb_reads : reads (entry_family e) (ni_table (ne_info e)) (entry_lines e) bs;
  eb_places : map fst bs = map (fun t => (table_of e, t_name t)) ts ++ [(table_of e, ne_base e)];
  eb_inside : in_blocks bs;
  eb_terms : forall t, In t ts -> exists a rs, In ((table_of e, t_name t), map Rule rs) bs /\ t_action t = [a] /\
    (forall r, In r rs -> nr_target r = Some (Verdict (nft_verdict a))) /\
    forall p, nft_traffic fams p -> ~ p_option p "established" -> (exists r, In r rs /\ nmeets r p) <-> term_matches t p;
  eb_base : exists r js, In ((table_of e, ne_base e), header_base (ne_info e) ++ Rule r :: map Rule js) bs /\
    nr_target r = Some (Verdict "accept") /\ (forall p, nmeets r p <-> p_option p "established") /\
    Forall2 (fun j t => nr_target j = Some (Jump (t_name t)) /\ forall p, nmeets j p) js ts;
  eb_jumps : forall b r c, In b bs -> In (Rule r) (snd b) -> nr_target r = Some (Jump c) -> exists t, In t ts /\ c = t_name t }.
Lemma join_clean_line l : (forall c, In c l -> has_char newline c = false) -> has_char newline (join " " l) = false.
Proof.
  intros H. destruct l as [|x l]; [reflexivity|]. revert x H. induction l as [|y l IH]; intros x H; [apply H; left; reflexivity|].
  rewrite join_cons2, !has_char_app, (H x) by (left; reflexivity). rewrite IH by (intros c I; apply H; right; exact I). reflexivity.
Qed.
Lemma inside_rules rs : flat_map inside (map NRule rs) = map Rule rs.
Proof. induction rs as [|r rs IH]; [reflexivity|]. cbn [map flat_map inside app]. rewrite IH. reflexivity. Qed.
Lemma inside_all rs : Forall is_inside (map NRule rs).
Proof. induction rs; constructor; [exact I|assumption]. Qed.
Lemma chain_blocks fams f n chains ts : Forall2 (chain_says fams) chains ts ->
  exists bs, reads f n (flat_map (fun c => chain_format (fst c) (snd c)) chains) bs /\ map fst bs = map (fun t => ((f, n), t_name t)) ts /\ in_blocks bs /\
    (forall t, In t ts -> exists a rs, In (((f, n), t_name t), map Rule rs) bs /\ t_action t = [a] /\
      (forall r, In r rs -> nr_target r = Some (Verdict (nft_verdict a))) /\
      forall p, nft_traffic fams p -> ~ p_option p "established" -> (exists r, In r rs /\ nmeets r p) <-> term_matches t p) /\
    (forall b r c, In b bs -> In (Rule r) (snd b) -> nr_target r <> Some (Jump c)).
Proof.
  induction 1 as [|(cn, cl) t chains ts (Hn & Nn & a & rs & Ea & El & Nl & Tl & Ml) F (bs & B1 & B2 & B3 & B4 & B5)].
  - exists []. split; [apply reads_nil|]. split; [reflexivity|]. split; [intros b c []|]. split; [intros t []|]. intros b r c [].
  - cbn [fst snd] in *. subst cn. exists (((f, n), t_name t, map Rule rs) :: bs). split; [|split; [|split; [|split]]].
    + cbn [flat_map fst snd]. change (((f, n), t_name t, map Rule rs) :: bs) with ([((f, n), t_name t, map Rule rs)] ++ bs). apply reads_app; [|exact B1].
      unfold chain_format. rewrite <- inside_rules. apply (reads_chain f n (t_name t) (map tab8 cl) (map NRule rs) Nn).
      * intros s I. apply in_map_iff in I. destruct I as (x & <- & I). unfold tab8. rewrite has_char_app, (Nl x I). reflexivity.
      * rewrite map_map. rewrite <- El. f_equal. apply map_ext. apply tab8_line.
      * apply inside_all.
    + cbn [map fst]. rewrite B2. reflexivity.
    + intros b c [<-|I] J; [cbn [snd] in J; apply in_map_iff in J; destruct J as (r & <- & _); discriminate|exact (B3 b c I J)].
    + intros x [<-|I]; [exists a, rs; split; [left; reflexivity|auto]|]. destruct (B4 x I) as (a' & rs' & J & K). exists a', rs'. split; [right; exact J|exact K].
    + intros b r c [<-|I] J; [|exact (B5 b r c I J)]. cbn [snd] in J. apply in_map_iff in J. destruct J as (r' & E & J). injection E as <-. rewrite (Tl r' J). discriminate.
Qed.
Lemma jump_blocks chains ts fams : Forall2 (chain_says fams) chains ts -> exists js, all_some (map nft_line (map (fun c => tab8 (append "jump " (fst c))) chains)) = Some (map NRule js) /\
  (forall s, In s (map (fun c : string * list string => tab8 (append "jump " (fst c))) chains) -> has_char newline s = false) /\
  Forall2 (fun j t => nr_target j = Some (Jump (t_name t)) /\ forall p, nmeets j p) js ts.
Proof.
  induction 1 as [|(cn, cl) t chains ts (Hn & Nn & _) F (js & J1 & J2 & J3)].
  - exists []. split; [reflexivity|]. split; [intros s []|constructor].
  - cbn [fst snd] in *. subst cn. destruct (jump_line (t_name t) Nn) as (r & L & T & M & N). exists (r :: js). cbn [map all_some fst]. rewrite L, J1.
    split; [reflexivity|]. split; [intros s [<-|I]; [exact N|exact (J2 s I)]|]. constructor; [|exact J3]. split; [exact T|]. intros p. apply M. exact I.
Qed.
Lemma entry_exact fams e ts : info_good (ne_info e) -> nft_name (ne_base e) = true -> (forall c, In c (nh_comment (ne_header e)) -> has_char newline c = false) ->
  Forall2 (chain_says fams) (ne_chains e) ts -> exists bs, entry_blocks fams e ts bs.
Proof.
  intros G Nb Nc F. destruct (chain_blocks fams (entry_family e) (ni_table (ne_info e)) _ _ F) as (bs & B1 & B2 & B3 & B4 & B5).
  destruct (jump_blocks _ _ _ F) as (js & J1 & J2 & J3).
  set (comment := if ni_verbose (ne_info e) then nh_comment (ne_header e) else []).
  assert (Ncm : has_char newline (join " " comment) = false) by (apply join_clean_line; unfold comment; destruct (ni_verbose (ne_info e)); [exact Nc|intros c []]).
  destruct (replies_line comment) as (r & L & T & M & N).
  destruct (isdigit_value _ (ig_priority _ G)) as (pr & Ep).
  pose proof (base_line _ _ _ pr (ig_hook _ G) (ig_priority _ G) Ep (ig_policy _ G)) as Bl. cbv zeta in Bl. destruct Bl as (Bl1 & Bl2).
  set (l1 := if some comment then [tab8 (append "#" (join " " comment))] else []).
  set (l2 := if ni_regular (ne_info e) then [] else
      [tab8 (append "type filter hook " (append (ni_hook (ne_info e)) (append " priority " (append (ni_priority (ne_info e)) (append "; policy " (append (ni_policy (ne_info e)) ";"))))))]).
  set (l3 := tab8 (append "ct state established,related accept" (if some comment then append (nft_add "comment") (nft_add (truncate_words (Lines comment) 126)) else ""))).
  set (l4 := map (fun c => tab8 (append "jump " (fst c))) (ne_chains e)).
  assert (K1 : exists s1, all_some (map nft_line l1) = Some s1 /\ Forall is_inside s1 /\ flat_map inside s1 = [] /\ forall s, In s l1 -> has_char newline s = false).
  { unfold l1. destruct (some comment).
    - destruct (comment_line (join " " comment) Ncm) as (C1 & C2). exists [NSkip]. cbn [map all_some]. rewrite C1. split; [reflexivity|]. split; [repeat constructor|]. split; [reflexivity|].
      intros s [<-|[]]. exact C2.
    - exists []. split; [reflexivity|]. split; [constructor|]. split; [reflexivity|intros s []]. }
  assert (K2 : exists s2, all_some (map nft_line l2) = Some s2 /\ Forall is_inside s2 /\ flat_map inside s2 = header_base (ne_info e) /\ forall s, In s l2 -> has_char newline s = false).
  { unfold l2, header_base. destruct (ni_regular (ne_info e)).
    - exists []. split; [reflexivity|]. split; [constructor|]. split; [reflexivity|intros s []].
    - rewrite Ep. exists [NBase (ni_hook (ne_info e)) pr (ni_policy (ne_info e))]. cbn [map all_some]. rewrite Bl1. split; [reflexivity|]. split; [repeat constructor|]. split; [reflexivity|].
      intros s [<-|[]]. exact Bl2. }
  destruct K1 as (s1 & E1 & F1 & H1 & N1). destruct K2 as (s2 & E2 & F2 & H2 & N2).
  assert (R : reads (entry_family e) (ni_table (ne_info e)) ([tab4 ("chain " ++ ne_base e ++ " {")] ++ (l1 ++ l2 ++ [l3] ++ l4) ++ [tab4 "}"])
                [((table_of e, ne_base e), header_base (ne_info e) ++ Rule r :: map Rule js)]).
  { assert (Ec : header_base (ne_info e) ++ Rule r :: map Rule js = flat_map inside (s1 ++ s2 ++ [NRule r] ++ map NRule js)).
    { rewrite !flat_map_app, H1, H2, inside_rules. reflexivity. }
    rewrite Ec. apply (reads_chain _ _ (ne_base e)); [exact Nb| | |].
    - intros s I. rewrite !in_app_iff in I. destruct I as [I|[I|[[<-|[]]|I]]]; [exact (N1 s I)|exact (N2 s I)|exact N|exact (J2 s I)].
    - rewrite !map_app. apply all_some_cat; [exact E1|]. apply all_some_cat; [exact E2|]. apply all_some_cat; [cbn [map all_some]; fold l3 in L; rewrite L; reflexivity|exact J1].
    - apply Forall_app. split; [exact F1|]. apply Forall_app. split; [exact F2|]. constructor; [exact Logic.I|apply inside_all]. }
  exists (bs ++ [((table_of e, ne_base e), header_base (ne_info e) ++ Rule r :: map Rule js)]). constructor.
  - assert (El : entry_lines e = flat_map (fun c => chain_format (fst c) (snd c)) (ne_chains e) ++ [tab4 ("chain " ++ ne_base e ++ " {")] ++ (l1 ++ l2 ++ [l3] ++ l4) ++ [tab4 "}"]).
    { unfold entry_lines. fold comment. cbv zeta. fold l1 l2 l4. fold l3. rewrite <- !app_assoc. reflexivity. }
    rewrite El. apply reads_app; [exact B1|exact R].
  - rewrite map_app. f_equal. exact B2.
  - intros b c I J. apply in_app_or in I. destruct I as [I|[<-|[]]]; [exact (B3 b c I J)|]. cbn [snd] in J. apply in_app_or in J. destruct J as [J|[<-|J]].
    + unfold header_base in J. destruct (ni_regular (ne_info e)); [destruct J|]. rewrite Ep in J. destruct J as [<-|[]]. discriminate.
    + discriminate.
    + apply in_map_iff in J. destruct J as (x & <- & _). discriminate.
  - intros t I. destruct (B4 t I) as (a & rs & J & K). exists a, rs. split; [apply in_or_app; left; exact J|exact K].
  - exists r, js. split; [apply in_or_app; right; left; reflexivity|]. auto.
  - intros b x c I J Tx. apply in_app_or in I. destruct I as [I|[<-|[]]]; [destruct (B5 b x c I J Tx)|]. cbn [snd] in J. apply in_app_or in J. destruct J as [J|[J|J]].
    + unfold header_base in J. destruct (ni_regular (ne_info e)); [destruct J|]. rewrite Ep in J. destruct J as [J|[]]. discriminate J.
    + injection J as <-. congruence.
    + apply in_map_iff in J. destruct J as (y & E & J). injection E as ->. destruct (Forall2_in_l _ _ _ J3 x J) as (t & It & (K & _)). exists t. split; [exact It|congruence].
Qed.

(** ** The dictionary *)

Definition keyed_entry : Type := (string * string * string * nft_entry)%type.
Definition entries (d : nft_dict) : list keyed_entry :=
  flat_map (fun T => flat_map (fun F => map (fun B => (fst T, fst F, fst B, snd B)) (snd F)) (snd T)) d.
Definition keyed (e : nft_entry) : keyed_entry := (ni_table (ne_info e), entry_family e, ne_base e, e).
Lemma put_perm {A B} (g : string -> A -> list B) k f d x :
  (forall a, In (k, a) d -> Permutation (g k (f (Some a))) (x ++ g k a)) -> Permutation (g k (f None)) x ->
  Permutation (flat_map (fun e => g (fst e) (snd e)) (dict_put k f d)) (x ++ flat_map (fun e => g (fst e) (snd e)) d).
Proof.
  intros H1 H2. induction d as [|(k', a) d IH]; cbn [dict_put flat_map fst snd].
  - rewrite !app_nil_r. exact H2.
  - destruct (String.eqb k k') eqn:E.
    + apply String.eqb_eq in E. subst k'. cbn [flat_map fst snd]. rewrite app_assoc. apply Permutation_app_tail. apply H1. left. reflexivity.
    + cbn [flat_map fst snd]. rewrite IH by (intros b I; apply H1; right; exact I). rewrite !app_assoc. apply Permutation_app_tail. apply Permutation_app_comm.
Qed.
Definition step (d : nft_dict) (e : nft_entry) : nft_dict :=
  dict_put (ni_table (ne_info e)) (fun fams => dict_put (entry_family e) (fun bases => dict_put (ne_base e) (fun _ => e) (or_empty bases)) (or_empty fams)) d.
Lemma step_entries d e : ~ In (fst (keyed e)) (map fst (entries d)) -> Permutation (entries (step d e)) (keyed e :: entries d).
Proof.
  intros N. unfold step, entries.
  apply (put_perm (fun k fams => flat_map (fun F : string * list (string * nft_entry) => map (fun B => (k, fst F, fst B, snd B)) (snd F)) fams) _ _ d [keyed e]).
  - intros fams I. cbn [or_empty].
    apply (put_perm (fun k bases => map (fun B : string * nft_entry => (ni_table (ne_info e), k, fst B, snd B)) bases) _ _ fams [keyed e]).
    + intros bases J. cbn [or_empty].
      assert (Nb : ~ In (ne_base e) (map fst bases)).
      { intros K. apply N. apply in_map_iff in K. destruct K as ((b, e') & E & K). cbn [fst] in E. subst b. apply in_map_iff.
        exists (ni_table (ne_info e), entry_family e, ne_base e, e'). split; [reflexivity|]. unfold entries. apply in_flat_map. exists (ni_table (ne_info e), fams). split; [exact I|].
        apply in_flat_map. exists (entry_family e, bases). split; [exact J|]. apply in_map_iff. exists (ne_base e, e'). auto. }
      clear - Nb. induction bases as [|(b, e') bases IH]; [apply Permutation_refl|]. cbn [dict_put]. destruct (String.eqb (ne_base e) b) eqn:E.
      { apply String.eqb_eq in E. subst b. exfalso. apply Nb. left. reflexivity. }
      cbn [map fst snd]. rewrite IH by (intros I; apply Nb; right; exact I). apply perm_swap.
    + apply Permutation_refl.
  - apply Permutation_refl.
Qed.
Lemma configuration_entries es : forall d, NoDup (map (fun e => fst (keyed e)) es ++ map fst (entries d)) ->
  Permutation (entries (fold_left step es d)) (map keyed es ++ entries d).
Proof.
  induction es as [|e es IH]; intros d N; cbn [fold_left map app]; [apply Permutation_refl|]. cbn [map app] in N. inversion N as [|? ? N1 N2]; subst.
  assert (N3 : ~ In (fst (keyed e)) (map fst (entries d))) by (intros I; apply N1, in_or_app; auto).
  pose proof (step_entries d e N3) as P. rewrite IH.
  - rewrite P. symmetry. apply Permutation_middle.
  - apply (Permutation_NoDup (l := fst (keyed e) :: map (fun e => fst (keyed e)) es ++ map fst (entries d))); [|exact N].
    rewrite (Permutation_map fst P). cbn [map]. apply Permutation_middle.
Qed.
Lemma configuration_fold es : configuration es = fold_left step es [].
Proof. reflexivity. Qed.

(** ** The text *)

Definition treads (lines : list string) (bs : list block) : Prop :=
  (forall s, In s lines -> has_char newline s = false) /\
  exists ls, all_some (map nft_line lines) = Some ls /\
    forall rest, nft_contents None None (ls ++ rest) = option_map (app (spread bs)) (nft_contents None None rest).
Lemma treads_nil : treads [] [].
Proof. split; [intros s []|]. exists []. split; [reflexivity|]. intros rest. rewrite omap_nil. reflexivity. Qed.
Lemma treads_app a b A B : treads a A -> treads b B -> treads (a ++ b) (A ++ B).
Proof.
  intros (NA & la & EA & RA) (NB & lb & EB & RB). split; [intros s I; apply in_app_or in I; destruct I; auto|].
  exists (la ++ lb). split; [rewrite map_app; apply all_some_cat; assumption|]. intros rest. rewrite <- app_assoc, RA, RB, spread_app. apply omap_app.
Qed.
Lemma treads_flat {A} (g : A -> list string) (h : A -> list block) l : (forall x, In x l -> treads (g x) (h x)) -> treads (flat_map g l) (flat_map h l).
Proof.
  induction l as [|x l IH]; intros H; [apply treads_nil|]. cbn [flat_map]. apply treads_app; [apply H; left; reflexivity|]. apply IH. intros y I. apply H. right. exact I.
Qed.
Lemma treads_table f n lines bs : In f ["ip"; "ip6"; "inet"; "bridge"] -> nft_name n = true -> reads f n lines bs ->
  treads (("table " ++ f ++ " " ++ n ++ " {")%string :: lines ++ ["}"]) bs.
Proof.
  intros If Nn (N & ls & E & R). destruct (table_line f n If Nn) as (L1 & L2). split.
  - intros s [<-|I]; [exact L2|]. apply in_app_or in I. destruct I as [I|[<-|[]]]; [auto|reflexivity].
  - exists (NTable f n :: ls ++ [NClose]). split.
    + cbn [map all_some]. rewrite L1, map_app, (all_some_cat _ (map nft_line ["}"]) ls [NClose] E eq_refl). reflexivity.
    + intros rest. cbn [app nft_contents]. rewrite <- app_assoc, R. reflexivity.
Qed.
Lemma render_reads d (blocks_of : nft_entry -> list block) :
  (forall k, In k (entries d) -> let '(n, f, b, e) := k in In f ["ip"; "ip6"; "inet"; "bridge"] /\ nft_name n = true /\ reads f n (entry_lines e) (blocks_of e)) ->
  (forall T F, In T d -> In F (snd T) -> snd F <> []) ->
  read_nft (join nl (nft_render d)) = Some (spread (flat_map (fun k => blocks_of (snd k)) (entries d))).
Proof.
  intros H Ne. assert (K : treads (nft_render d) (flat_map (fun k => blocks_of (snd k)) (entries d))).
  { unfold nft_render. rewrite <- (app_nil_r (flat_map (fun k => blocks_of (snd k)) (entries d))). apply treads_app.
    - assert (E : flat_map (fun k => blocks_of (snd k)) (entries d) = flat_map (fun T => flat_map (fun F => flat_map (fun B => blocks_of (snd B)) (snd F)) (snd T)) d).
      { unfold entries. clear. induction d as [|T d IH]; [reflexivity|]. cbn [flat_map]. rewrite flat_map_app, IH. f_equal. clear IH.
        induction (snd T) as [|F l IH]; [reflexivity|]. cbn [flat_map]. rewrite flat_map_app, IH. f_equal. clear IH. induction (snd F) as [|B l' IH]; [reflexivity|].
        cbn [map flat_map snd]. rewrite IH. reflexivity. }
      rewrite E. apply treads_flat. intros T IT. apply treads_flat. intros F IF.
      assert (X : forall B, In B (snd F) -> In (fst F) ["ip"; "ip6"; "inet"; "bridge"] /\ nft_name (fst T) = true /\ reads (fst F) (fst T) (entry_lines (snd B)) (blocks_of (snd B))).
      { intros B IB. apply (H (fst T, fst F, fst B, snd B)). unfold entries. apply in_flat_map. exists T. split; [exact IT|]. apply in_flat_map. exists F. split; [exact IF|].
        apply in_map_iff. exists B. auto. }
      assert (Y : In (fst F) ["ip"; "ip6"; "inet"; "bridge"] /\ nft_name (fst T) = true).
      { specialize (Ne T F IT IF). destruct (snd F) as [|B l]; [congruence|]. destruct (X B (or_introl eq_refl)) as (X1 & X2 & _). auto. }
      apply treads_table; [apply Y|apply Y|]. apply reads_flat. intros B IB. apply X, IB.
    - split; [intros s [<-|[<-|[]]]; reflexivity|]. exists [NSkip; NSkip]. split; [reflexivity|]. intros rest. rewrite omap_nil. reflexivity. }
  destruct K as (N & ls & E & R). unfold read_nft. rewrite WrapProofs.split_join; [|unfold nft_render; destruct (flat_map _ d); discriminate|exact N].
  rewrite E. specialize (R []). rewrite app_nil_r in R. rewrite R. cbn. rewrite app_nil_r. reflexivity.
Qed.
Lemma put_nonempty {A} k (f : option (list A) -> list A) (d : list (string * list A)) : (forall o, f o <> []) -> (forall x, In x d -> snd x <> []) ->
  forall x, In x (dict_put k f d) -> snd x <> [].
Proof.
  intros H1 H2. induction d as [|(k', a) d IH]; cbn [dict_put].
  - intros x [<-|[]]. apply H1.
  - destruct (String.eqb k k'); intros x [<-|I]; [apply H1|apply H2; right; exact I|apply H2; left; reflexivity|]. apply IH; [intros y J; apply H2; right; exact J|exact I].
Qed.
Lemma put_nil {A} k (f : option A -> A) d : dict_put k f d <> [].
Proof. destruct d as [|(k', a) d]; [discriminate|]. cbn [dict_put]. destruct (String.eqb k k'); discriminate. Qed.
Lemma put_in {A} k (f : option A -> A) d x : In x (dict_put k f d) -> In x d \/ (exists o, x = (k, f o) /\ match o with Some a => In (k, a) d | None => True end).
Proof.
  induction d as [|(k', a) d IH]; cbn [dict_put].
  - intros [<-|[]]. right. exists None. auto.
  - destruct (String.eqb k k') eqn:E.
    + apply String.eqb_eq in E. subst k'. intros [<-|I]; [right; exists (Some a); cbn; auto|left; right; exact I].
    + intros [<-|I]; [left; left; reflexivity|]. destruct (IH I) as [J|(o & -> & J)]; [left; right; exact J|]. right. exists o. split; [reflexivity|]. destruct o; [right; exact J|exact J].
Qed.
Lemma configuration_nonempty es : forall d, (forall T F, In T d -> In F (snd T) -> snd F <> []) -> forall T F, In T (fold_left step es d) -> In F (snd T) -> snd F <> [].
Proof.
  induction es as [|e es IH]; intros d H; [exact H|]. cbn [fold_left]. apply IH. intros T F IT IF. apply put_in in IT. destruct IT as [IT|(o & -> & IT)]; [exact (H T F IT IF)|].
  cbn [snd] in IF. revert F IF. apply (put_nonempty (entry_family e) (fun bases => dict_put (ne_base e) (fun _ => e) (or_empty bases))); [intros x; apply put_nil|].
  destruct o as [fams|]; [|intros x []]. intros F IF. exact (H _ F IT IF).
Qed.

(** ** Headers and their blocks *)

Lemma NoDup_app_iff {A} (a b : list A) : NoDup (a ++ b) <-> NoDup a /\ NoDup b /\ forall x, In x a -> In x b -> False.
Proof.
  induction a as [|x a IH]; cbn [app].
  - split; [intros H; split; [constructor|split; [exact H|intros x []]]|intros (_ & H & _); exact H].
  - split.
    + intros H. inversion H as [|? ? H1 H2]; subst. apply IH in H2. destruct H2 as (A1 & A2 & A3). split; [|split; [exact A2|]].
      * constructor; [|exact A1]. intros I. apply H1, in_or_app. auto.
      * intros y [<-|I] J; [apply H1, in_or_app; auto|exact (A3 y I J)].
    + intros (H1 & H2 & H3). inversion H1 as [|? ? A1 A2]; subst. constructor.
      * intros I. apply in_app_or in I. destruct I as [I|I]; [exact (A1 I)|exact (H3 x (or_introl eq_refl) I)].
      * apply IH. split; [exact A2|]. split; [exact H2|]. intros y I J. exact (H3 y (or_intror I) J).
Qed.

Lemma forall2_says {A B} (M : A -> string -> Prop) (T : B -> string -> Prop) js ts o :
  Forall2 (fun j t => forall a, M j a <-> T t a) js ts -> first_says M js o <-> first_says T ts o.
Proof.
  induction 1 as [|j t js ts H F IH]; [split; intros X; apply first_says_nil in X; destruct X|]. rewrite !first_says_cons, IH. rewrite (H o).
  split; (intros [X|(X & Y)]; [left; exact X|right; split; [exact X|intros a Z; apply Y, H, Z]]).
Qed.
Definition row : Type := (nft_entry * (list term * list block))%type.
Definition row_blocks (x : row) : list block := snd (snd x).
Definition row_good (x : row) : Prop := entry_blocks (header_families (ne_info (fst x))) (fst x) (fst (snd x)) (row_blocks x).
Lemma translate_blocks today : forall fs n es, nft_translate today (Z.of_nat n) fs = Ok es -> NoDup (policy_places n fs) ->
  (forall k h terms i, nth_error fs k = Some (h, terms) -> process_header (nh_options h) = Ok i -> nft_name (ni_table i) = true /\ nft_name (header_chain i (n + k)) = true) ->
  (forall h terms c, In (h, terms) fs -> In c (nh_comment h) -> has_char newline c = false) ->
  (forall h terms i t, In (h, terms) fs -> process_header (nh_options h) = Ok i -> In t terms -> nft_term_applies today t -> nft_term_ok (header_families i) t) ->
  exists L : list row, map fst L = es /\ Forall row_good L /\ NoDup (map fst (flat_map row_blocks L)) /\ incl (map fst (flat_map row_blocks L)) (policy_places n fs) /\
    (forall x, In x L -> info_good (ne_info (fst x)) /\ nft_name (ni_table (ne_info (fst x))) = true) /\
    forall k h terms i, nth_error fs k = Some (h, terms) -> process_header (nh_options h) = Ok i ->
      exists x, nth_error L k = Some x /\ ne_info (fst x) = i /\ ne_base (fst x) = header_chain i (n + k) /\
        forall p o, nft_traffic (header_families i) p -> ~ p_option p "established" ->
          first_says (term_gives p) (fst (snd x)) o <-> first_says (nft_applies today p) terms o.
Proof.
  induction fs as [|(h, terms) rest IH]; intros n es H Np Nn Nc Nt; cbn [nft_translate] in H.
  { apply ok_inj in H. subst. exists []. split; [reflexivity|]. split; [constructor|]. split; [constructor|]. split; [intros x []|]. split; [intros x []|]. intros [|k] ? ? ? E; discriminate E. }
  destruct (process_header (nh_options h)) as [i|] eqn:Eh; cbn [bind] in H; [|discriminate H].
  destruct (nft_select i today [] terms) as [chains|] eqn:Es; cbn [bind] in H; [|discriminate H].
  replace (Z.of_nat n + 1) with (Z.of_nat (S n)) in H by lia.
  destruct (nft_translate today (Z.of_nat (S n)) rest) as [more|] eqn:Em; cbn [bind] in H; [|discriminate H]. apply ok_inj in H. subst es.
  cbn [policy_places] in Np. rewrite Eh in Np. inversion Np as [|? ? Np1 Np2]; subst.
  apply NoDup_app_iff in Np2. destruct Np2 as (Np2 & Np3 & Np4).
  destruct (IH (S n) more Em Np3) as (L & L1 & L2 & L3 & L4 & L5 & L6).
  { intros k h' t' i' E E'. replace (S n + k)%nat with (n + S k)%nat by lia. exact (Nn (S k) h' t' i' E E'). }
  { intros h' t' c I. apply (Nc h' t' c). right. exact I. }
  { intros h' t' i' t I. apply (Nt h' t' i' t). right. exact I. }
  destruct (select_exact i today terms [] chains) as (ts & S1 & S2 & S3 & _ & S5); [|exact Es|].
  { apply Forall_forall. intros t I. apply (Nt h terms i t); [left; reflexivity|exact Eh|exact I]. }
  destruct (Nn 0%nat h terms i eq_refl Eh) as (N1 & N2). rewrite Nat.add_0_r in N2.
  set (e := mkNftEntry h i (append (ni_base i) (dec (Z.of_nat n))) chains).
  destruct (entry_exact (header_families i) e ts) as (bs & B); [exact (header_good _ _ Eh)|exact N2|intros c; apply (Nc h terms c); left; reflexivity|exact S1|].
  assert (P : map fst bs = map (fun t => (header_table i, t_name t)) ts ++ [(header_table i, header_chain i n)]) by exact (eb_places _ _ _ _ B).
  assert (Q : incl (map fst bs) ((header_table i, header_chain i n) :: map (fun t => (header_table i, t_name t)) terms)).
  { rewrite P. intros x I. apply in_app_or in I. destruct I as [I|[<-|[]]]; [|left; reflexivity]. right. apply in_map_iff in I. destruct I as (t & <- & I). apply in_map_iff. exists t. auto. }
  exists ((e, (ts, bs)) :: L). split; [cbn [map fst]; rewrite L1; reflexivity|]. split; [constructor; [exact B|exact L2]|].
  split; [|split; [|split]].
  - cbn [flat_map]. unfold row_blocks at 1. cbn [snd]. rewrite map_app. apply NoDup_app_iff. split; [|split; [exact L3|]].
    + refine (eq_ind_r (fun l => NoDup l) _ P).
      apply NoDup_app_iff. split; [|split; [constructor; [intros []|constructor]|]].
      * clear - S3. induction ts as [|t ts IH]; [constructor|]. cbn [map] in *. inversion S3 as [|? ? X1 X2]; subst. constructor; [|exact (IH X2)].
        intros I. apply X1. apply in_map_iff in I. destruct I as (u & E & I). apply in_map_iff. exists u. split; [congruence|exact I].
      * intros x I [J|[]]. subst x. apply Np1. apply in_or_app. left. apply in_map_iff in I. destruct I as (t & E & I). rewrite <- E. apply in_map_iff. exists t. auto.
    + intros x I J. apply L4 in J. apply Q in I. destruct I as [<-|I]; [apply Np1, in_or_app; right; exact J|exact (Np4 x I J)].
  - cbn [flat_map policy_places]. rewrite Eh. unfold row_blocks at 1. cbn [snd]. rewrite map_app. intros x I. apply in_app_or in I. destruct I as [I|I].
    + apply Q in I. destruct I as [<-|I]; [left; reflexivity|right; apply in_or_app; left; exact I].
    + right. apply in_or_app. right. exact (L4 x I).
  - intros x [<-|I]; [cbn [fst ne_info e]; split; [exact (header_good _ _ Eh)|exact N1]|exact (L5 x I)].
  - intros [|k] h' t' i' E E'.
    + cbn in E. injection E as <- <-. rewrite Eh in E'. apply ok_inj in E'. subst i'. exists (e, (ts, bs)). split; [reflexivity|]. split; [reflexivity|]. rewrite Nat.add_0_r. split; [reflexivity|]. exact S5.
    + destruct (L6 k h' t' i' E E') as (x & X1 & X2 & X3 & X4). exists x. split; [exact X1|]. split; [exact X2|]. split; [rewrite X3; f_equal; lia|exact X4].
Qed.
(** Rows are told apart by the chain of the header. *)
Definition row_key (e : nft_entry) : place := (table_of e, ne_base e).
Lemma rows_nodup L : Forall row_good L -> NoDup (map fst (flat_map row_blocks L)) -> NoDup (map (fun x => row_key (fst x)) L).
Proof.
  induction 1 as [|x L G F IH]; intros N; [constructor|]. cbn [flat_map] in N. rewrite map_app in N. apply NoDup_app_iff in N. destruct N as (_ & N2 & N3).
  cbn [map]. constructor; [|exact (IH N2)]. intros I. apply in_map_iff in I. destruct I as (y & E & I).
  assert (K : forall z, row_good z -> In (row_key (fst z)) (map fst (row_blocks z))).
  { intros z Gz. unfold row_good in Gz. pose proof (eb_places _ _ _ _ Gz) as P. refine (eq_ind_r (fun l => In _ l) _ P).
    apply in_or_app. right. left. reflexivity. }
  apply (N3 (row_key (fst x))); [exact (K x G)|]. rewrite <- E. pose proof (K y (proj1 (Forall_forall _ _) F y I)) as Ky. apply in_map_iff in Ky. destruct Ky as (b & Eb & Ib).
  rewrite <- Eb. apply in_map, in_flat_map. exists y. auto.
Qed.
Definition blocks_of (L : list row) (e : nft_entry) : list block :=
  match find (fun x => place_eqb (row_key (fst x)) (row_key e)) L with Some x => row_blocks x | None => [] end.
Lemma blocks_of_row L : NoDup (map (fun x => row_key (fst x)) L) -> forall x, In x L -> blocks_of L (fst x) = row_blocks x.
Proof.
  unfold blocks_of. induction L as [|y L IH]; intros N x I; [destruct I|]. cbn [map] in N. inversion N as [|? ? N1 N2]; subst. cbn [find].
  destruct (place_eqb (row_key (fst y)) (row_key (fst x))) eqn:E.
  - apply place_eqb_iff in E. destruct I as [->|I]; [reflexivity|]. exfalso. apply N1. rewrite E. apply in_map_iff. exists x. auto.
  - destruct I as [->|I]; [|exact (IH N2 x I)]. assert (X : place_eqb (row_key (fst x)) (row_key (fst x)) = true) by (apply place_eqb_iff; reflexivity). congruence.
Qed.
Lemma flat_map_perm {A B} (f : A -> list B) l l' : Permutation l l' -> Permutation (flat_map f l) (flat_map f l').
Proof.
  induction 1; cbn [flat_map]; [apply Permutation_refl|apply Permutation_app_head; assumption|rewrite !app_assoc; apply Permutation_app_tail, Permutation_app_comm|].
  eapply Permutation_trans; eassumption.
Qed.
Lemma nft_policy_blocks today fs lines : nft_policy today fs = Ok lines -> nft_policy_ok today fs ->
  exists (L : list row) bs, read_nft (join nl lines) = Some (spread bs) /\ NoDup (map fst bs) /\ Forall row_good L /\ Permutation bs (flat_map row_blocks L) /\
    forall k h terms i, nth_error fs k = Some (h, terms) -> process_header (nh_options h) = Ok i ->
      exists x, In x L /\ ne_info (fst x) = i /\ ne_base (fst x) = header_chain i k /\
        forall p o, nft_traffic (header_families i) p -> ~ p_option p "established" ->
          first_says (term_gives p) (fst (snd x)) o <-> first_says (nft_applies today p) terms o.
Proof.
  unfold nft_policy. intros H OK. destruct (nft_translate today 0 fs) as [es|] eqn:Et; cbn [bind] in H; [|discriminate H]. apply ok_inj in H. subst lines.
  destruct (translate_blocks today fs 0 es Et (np_places _ _ OK) (np_names _ _ OK) (np_comments _ _ OK) (np_terms _ _ OK)) as (L & L1 & L2 & L3 & _ & L5 & L6).
  pose proof (rows_nodup L L2 L3) as Nk.
  assert (Ne : NoDup (map (fun e => fst (keyed e)) es ++ map fst (entries []))).
  { cbn. rewrite app_nil_r, <- L1, map_map. assert (X : forall l : list row, map (fun x => fst (keyed (fst x))) l = map (fun k : place => (snd (fst k), fst (fst k), snd k)) (map (fun x => row_key (fst x)) l)) by (intros l; rewrite map_map; reflexivity).
    rewrite X. apply FinFun.Injective_map_NoDup; [|exact Nk]. intros ((a, b), c) ((a', b'), c') E. cbn in E. congruence. }
  pose proof (configuration_entries es [] Ne) as P. rewrite <- configuration_fold in P. cbn [entries flat_map] in P. rewrite app_nil_r in P.
  set (bs := flat_map (fun k => blocks_of L (snd k)) (entries (configuration es))).
  assert (Pb : Permutation bs (flat_map row_blocks L)).
  { unfold bs. rewrite (flat_map_perm _ _ _ P). rewrite <- L1. clear - Nk.
    assert (G : forall M : list row, incl M L -> flat_map (fun k => blocks_of L (snd k)) (map keyed (map fst M)) = flat_map row_blocks M).
    { induction M as [|x M IH]; intros I; [reflexivity|]. cbn [map flat_map keyed snd]. rewrite IH by (intros y J; apply I; right; exact J).
      rewrite (blocks_of_row L Nk x) by (apply I; left; reflexivity). reflexivity. }
    refine (eq_ind_r (fun l => Permutation l _) _ (G L (incl_refl L))). apply Permutation_refl. }
  exists L, bs. split; [|split; [|split; [exact L2|split; [exact Pb|]]]].
  - apply render_reads.
    + intros (((n, f), b), e) I. apply (Permutation_in _ P) in I. apply in_map_iff in I. destruct I as (e' & E & I). unfold keyed in E. injection E as E1 E2 E3 E4. subst e' n f b.
      rewrite <- L1 in I. apply in_map_iff in I. destruct I as (x & E & I). subst e. destruct (L5 x I) as (G & Nm). split; [exact (ig_family _ G)|]. split; [exact Nm|].
      rewrite (blocks_of_row L Nk x I). exact (eb_reads _ _ _ _ (proj1 (Forall_forall _ _) L2 x I)).
    + rewrite configuration_fold. apply configuration_nonempty. intros T F [].
  - apply (Permutation_NoDup (l := map fst (flat_map row_blocks L))); [apply Permutation_map; symmetry; exact Pb|exact L3].
  - intros k h terms i E E'. destruct (L6 k h terms i E E') as (x & X1 & X2 & X3 & X4). exists x. split; [exact (nth_error_In _ _ X1)|]. auto.
Qed.

(** ** The decision *)

Lemma rules_block at_ l bs : NoDup (map fst bs) -> In (at_, l) bs -> nrules_at at_ (spread bs) = flat_map (fun x => match x with Rule r => [r] | _ => [] end) l.
Proof. intros N I. unfold nrules_at. rewrite (contents_block at_ l bs N I). reflexivity. Qed.
Lemma only_rules rs : flat_map (fun x => match x with Rule r => [r] | _ => [] end) (map Rule rs) = rs.
Proof. induction rs as [|r rs IH]; [reflexivity|]. cbn [map flat_map app]. rewrite IH. reflexivity. Qed.
Lemma base_norules i : flat_map (fun x => match x with Rule r => [r] | _ => [] end) (header_base i) = [].
Proof. unfold header_base. destruct (ni_regular i); [reflexivity|]. destruct (numeral_value (ni_priority i)); reflexivity. Qed.
Lemma term_chain_gives fams bs e ts es t p o d : NoDup (map fst bs) -> incl es bs -> entry_blocks fams e ts es -> In t ts -> nft_traffic fams p -> ~ p_option p "established" ->
  nchain_gives (S d) (spread bs) (table_of e, t_name t) p o <-> term_gives p t o.
Proof.
  intros N Ic B It Tr Ne. destruct (eb_terms _ _ _ _ B t It) as (a & rs & I & Ea & T & M). specialize (M p Tr Ne).
  cbn [nchain_gives]. rewrite (rules_block _ _ bs N (Ic _ I)), only_rules. rewrite first_says_block.
  - unfold term_gives. rewrite <- M. split.
    + intros (r & Ir & Mr & O). rewrite (T r Ir) in O. split; [exists r; auto|]. exists a. auto.
    + intros ((r & Ir & Mr) & a' & E' & O). exists r. split; [exact Ir|]. split; [exact Mr|]. rewrite (T r Ir). congruence.
  - intros y z x x' Iy Iz (_ & Oy) (_ & Oz). rewrite (T y Iy) in Oy. rewrite (T z Iz) in Oz. congruence.
Qed.
Lemma base_gives fams bs e ts es p o d : NoDup (map fst bs) -> incl es bs -> entry_blocks fams e ts es -> nft_traffic fams p ->
  nchain_gives (S (S d)) (spread bs) (table_of e, ne_base e) p o <->
  (p_option p "established" /\ o = "accept") \/ (~ p_option p "established" /\ first_says (term_gives p) ts o).
Proof.
  intros N Ic B Tr. destruct (eb_base _ _ _ _ B) as (r & js & I & T & M & J).
  remember (S d) as d' eqn:Ed. cbn [nchain_gives]. rewrite (rules_block _ _ bs N (Ic _ I)), flat_map_app, base_norules. cbn [app flat_map]. rewrite only_rules, first_says_cons. rewrite T.
  destruct Tr as (Tv & Td & Trest). destruct Td as [E|E].
  - split.
    + intros [(_ & ->)|(_ & K)]; [left; auto|left]. split; [exact E|]. symmetry. apply K. split; [apply M, E|reflexivity].
    + intros [(_ & ->)|(K & _)]; [left; split; [apply M, E|reflexivity]|destruct (K E)].
  - assert (Tr : nft_traffic fams p) by (split; [exact Tv|split; [right; exact E|exact Trest]]).
    assert (F2 : Forall2 (fun j t => forall a, (nmeets j p /\ match nr_target j with Some (Verdict v) => a = v | Some (Jump c) => nchain_gives d' (spread bs) (table_of e, c) p a | None => False end) <-> term_gives p t a) js ts).
    { assert (K : forall js us, incl us ts -> Forall2 (fun j t => nr_target j = Some (Jump (t_name t)) /\ (forall p, nmeets j p)) js us ->
        Forall2 (fun j t => forall a, (nmeets j p /\ match nr_target j with Some (Verdict v) => a = v | Some (Jump c) => nchain_gives d' (spread bs) (table_of e, c) p a | None => False end) <-> term_gives p t a) js us).
      { intros xs. induction xs as [|x xs IH]; intros vs Iv F; inversion F as [|? t ? vs' (X1 & X2) F' ]; subst; [constructor|]. constructor.
        - intros a. rewrite X1. rewrite (term_chain_gives fams bs e ts es t p a d N Ic B); [|apply Iv; left; reflexivity|exact Tr|exact E].
          split; [intros (_ & Y); exact Y|intros Y; split; [apply X2|exact Y]].
        - apply IH; [intros y Iy; apply Iv; right; exact Iy|exact F']. }
      apply K; [apply incl_refl|exact J]. }
    rewrite (forall2_says _ _ js ts o F2). split.
    + intros [(K & _)|(K & _)]; [apply M in K; destruct (E K)|right; auto].
    + intros [(K & _)|(_ & K)]; [destruct (E K)|]. right. split; [exact K|]. intros a (X & _). apply M in X. destruct (E X).
Qed.
Lemma spread_length bs b : In b bs -> (1 <= List.length (spread bs))%nat.
Proof.
  intros I. destruct bs as [|x bs]; [destruct I|]. rewrite spread_cons, app_length, map_length. cbn [List.length]. lia.
Qed.
Lemma nft_policy_exact today fs lines : nft_policy today fs = Ok lines -> nft_policy_ok today fs ->
  exists cs, read_nft (join nl lines) = Some cs /\ jumps_exist cs /\ chains_once cs /\
    forall n h terms i, nth_error fs n = Some (h, terms) -> process_header (nh_options h) = Ok i ->
      filter (fun x => match x with Base _ _ _ => true | _ => false end) (contents_at (header_table i, header_chain i n) cs) = header_base i /\
      forall p o, nft_traffic (header_families i) p ->
        (nft_decides cs (header_table i, header_chain i n) p o <->
         (p_option p "established" /\ o = "accept") \/ (~ p_option p "established" /\ first_says (nft_applies today p) terms o)).
Proof.
  intros H OK. destruct (nft_policy_blocks today fs lines H OK) as (L & bs & R & N & G & P & K). exists (spread bs). split; [exact R|].
  assert (Ic : forall x, In x L -> incl (row_blocks x) bs).
  { intros x I b J. apply (Permutation_in _ (Permutation_sym P)), in_flat_map. exists x. auto. }
  split; [|split].
  - intros f n c r t I T. apply spread_in in I. destruct I as (l & I & J). destruct J as [J|J]; [discriminate J|].
    pose proof (Permutation_in _ P I) as I'. apply in_flat_map in I'. destruct I' as (x & Ix & Ib). pose proof (proj1 (Forall_forall _ _) G x Ix) as B. unfold row_good in B.
    destruct (eb_jumps _ _ _ _ B _ r t Ib J T) as (u & Iu & ->). destruct (eb_terms _ _ _ _ B u Iu) as (a & rs & Iu' & _).
    assert (Ep : table_of (fst x) = (f, n)).
    { pose proof (in_map fst _ _ Ib) as Z. cbn [fst] in Z. pose proof (eb_places _ _ _ _ B) as Pl.
      assert (Z' : In (f, n, c) (map (fun t => (table_of (fst x), t_name t)) (fst (snd x)) ++ [(table_of (fst x), ne_base (fst x))])) by (rewrite <- Pl; exact Z).
      apply in_app_or in Z'. destruct Z' as [Z'|[Z'|[]]]; [apply in_map_iff in Z'; destruct Z' as (v & Z' & _)|]; congruence. }
    rewrite Ep in Iu'. apply spread_in. exists (map Rule rs). split; [exact (Ic x Ix _ Iu')|left; reflexivity].
  - unfold chains_once. rewrite spread_made; [exact N|]. intros b c I J. apply (Permutation_in _ P) in I. apply in_flat_map in I. destruct I as (x & Ix & Ib).
    exact (eb_inside _ _ _ _ (proj1 (Forall_forall _ _) G x Ix) b c Ib J).
  - intros n h terms i E E'. destruct (K n h terms i E E') as (x & Ix & X1 & X2 & X3). pose proof (proj1 (Forall_forall _ _) G x Ix) as B. unfold row_good in B. rewrite X1 in B.
    assert (Et : table_of (fst x) = header_table i) by (rewrite <- X1; reflexivity).
    split.
    + destruct (eb_base _ _ _ _ B) as (r & js & I & _). rewrite Et, X2, X1 in I. rewrite (contents_block _ _ bs N (Ic x Ix _ I)). cbn [filter]. rewrite filter_app. cbn [filter].
      assert (F : filter (fun x => match x with Base _ _ _ => true | _ => false end) (map Rule js) = []) by (clear; induction js; [reflexivity|assumption]).
      rewrite F, app_nil_r. unfold header_base. destruct (ni_regular i); [reflexivity|]. destruct (numeral_value (ni_priority i)); reflexivity.
    + intros p o Tr. unfold nft_decides. destruct (eb_base _ _ _ _ B) as (r & js & I & _). pose proof (spread_length bs _ (Ic x Ix _ I)) as Ln.
      destruct (List.length (spread bs)) as [|d]; [lia|]. rewrite <- Et, <- X2. rewrite (base_gives _ bs (fst x) (fst (snd x)) (row_blocks x) p o d N (Ic x Ix) B Tr).
      split; (intros [Y|(Y & Z)]; [left; exact Y|right; split; [exact Y|apply (X3 p o Tr Y); exact Z]]).
Qed.
