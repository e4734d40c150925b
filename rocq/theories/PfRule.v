(** Packet Filter: reading of the rules. *)
From Coq Require Import Lia ZifyBool ZifyNat.
From Verif Require Import SpecPf BaseFacts IPFacts PyStrFacts TextProofs GenProofs GenProofs2 CiscoProofs CiscoProofs2 PfText.
Local Open Scope string_scope.
Local Open Scope list_scope.
Local Open Scope Z_scope.

(** ** The words of a rule *)
Definition opt1 (o : option string) : list string := match o with Some w => [w] | None => [] end.
Definition optk (k : string) (o : option string) : list string := match o with Some w => [k; w] | None => [] end.
Definition optl (k : string) (o : option (list string)) : list string := match o with Some l => k :: "{" :: l ++ ["}"] | None => [] end.
Definition state_words (o : option string) : list string := match o with Some w => [w; "state"] | None => [] end.
Definition flag (w : string) (b : bool) : list string := if b then [w] else [].
Definition rule_words (r : pf_rule) (log : bool) : list string :=
  split_ws (pr_action r) ++ opt1 (pr_dir r) ++ flag "quick" (pr_quick r) ++ flag "log" log ++ optk "on" (pr_if r) ++ opt1 (pr_family r) ++ optl "proto" (pr_proto r)
  ++ optl "from" (Some (pr_src r)) ++ optl "port" (pr_sport r) ++ optl "to" (Some (pr_dst r)) ++ optl "port" (pr_dport r)
  ++ optk "flags" (pr_flags r) ++ optl "icmp-type" (pr_types r) ++ optl "icmp6-type" (pr_types6 r) ++ state_words (pr_state r).
Definition listed (o : option (list string)) : Prop := forall l, o = Some l -> ~ In "}" l.
Record rule_good (r : pf_rule) : Prop := {
  rg_action : In (pr_action r) ["pass"; "block drop"; "block return"];
  rg_dir : forall w, pr_dir r = Some w -> In w ["in"; "out"];
  rg_family : forall w, pr_family r = Some w -> In w ["inet"; "inet6"];
  rg_lists : listed (pr_proto r) /\ listed (Some (pr_src r)) /\ listed (pr_sport r) /\ listed (Some (pr_dst r)) /\ listed (pr_dport r) /\ listed (pr_types r) /\ listed (pr_types6 r);
  rg_state : forall w, pr_state r = Some w -> In w ["keep"; "no"] }.

Definition heads (ks ws : list string) : Prop := match ws with [] => True | w :: _ => In w ks end.
Lemma heads_app ks a b : heads ks a -> heads ks b -> heads ks (a ++ b).
Proof. destruct a; [intros _ H; exact H|intros H _; exact H]. Qed.
Lemma heads_weak ks ks' ws : forallb (fun w => str_in w ks') ks = true -> heads ks ws -> heads ks' ws.
Proof. intros F H. destruct ws as [|w ws]; [exact Logic.I|]. cbn [heads] in *. rewrite forallb_forall in F. apply str_in_spec, F, H. Qed.
Lemma apart_in ks ks' w : forallb (fun w => negb (str_in w ks)) ks' = true -> In w ks' -> str_in w ks = false.
Proof. intros F H. rewrite forallb_forall in F. apply negb_true_iff, F, H. Qed.
Lemma heads_opt1 ks o : (forall w, o = Some w -> In w ks) -> heads ks (opt1 o).
Proof. destruct o as [w|]; intros H; [exact (H w eq_refl)|exact Logic.I]. Qed.
Lemma heads_flag ks w b : In w ks -> heads ks (flag w b).
Proof. destruct b; intros H; [exact H|exact Logic.I]. Qed.
Lemma heads_optk ks k o : In k ks -> heads ks (optk k o).
Proof. destruct o; intros H; [exact H|exact Logic.I]. Qed.
Lemma heads_optl ks k o : In k ks -> heads ks (optl k o).
Proof. destruct o; intros H; [exact H|exact Logic.I]. Qed.

Lemma take_opt ks ks' o r : (forall w, o = Some w -> In w ks) -> heads ks' r -> forallb (fun w => negb (str_in w ks)) ks' = true -> take ks (opt1 o ++ r) = (o, r).
Proof.
  intros H R F. destruct o as [w|]; cbn [opt1 app take].
  - assert (S : str_in w ks = true) by (apply str_in_spec, H; reflexivity). rewrite S. reflexivity.
  - destruct r as [|x r]; [reflexivity|]. cbn [take]. rewrite (apart_in ks ks' x F R). reflexivity.
Qed.
Lemma take_flag w ks' b r : heads ks' r -> forallb (fun x => negb (str_in x [w])) ks' = true -> take [w] (flag w b ++ r) = (if b then Some w else None, r).
Proof.
  intros R F. destruct b; [exact (take_opt [w] ks' (Some w) r (fun x E => or_introl (f_equal (fun o => match o with Some y => y | None => w end) E)) R F)|].
  refine (take_opt [w] ks' None r _ R F). discriminate.
Qed.
Lemma take_key k ks' o r : heads ks' r -> forallb (fun x => negb (str_in x [k])) ks' = true -> take_after k (optk k o ++ r) = (o, r).
Proof.
  intros R F. destruct o as [w|]; cbn [optk app take_after]; [rewrite String.eqb_refl; reflexivity|].
  destruct r as [|x [|y r]]; try reflexivity. cbn [take_after]. pose proof (apart_in [k] ks' x F R) as N. unfold str_in, memb in N. cbn [existsb] in N. rewrite orb_false_r in N. rewrite N. reflexivity.
Qed.
Lemma upto_list l r : ~ In "}" l -> upto (l ++ "}" :: r) = Some (l, r).
Proof.
  induction l as [|w l IH]; intros N; [reflexivity|]. cbn [app upto]. destruct (String.eqb w "}") eqn:E; [apply String.eqb_eq in E; exfalso; apply N; left; exact E|].
  rewrite IH by (intros I; apply N; right; exact I). reflexivity.
Qed.
Lemma take_lst k ks' o r : listed o -> heads ks' r -> forallb (fun x => negb (str_in x [k])) ks' = true -> take_list k (optl k o ++ r) = Some (o, r).
Proof.
  intros L R F. destruct o as [l|]; cbn [optl app take_list].
  - rewrite String.eqb_refl. change (String.eqb "{" "{") with true. cbv iota. rewrite <- app_assoc. cbn [app]. rewrite upto_list by (apply L; reflexivity). reflexivity.
  - destruct r as [|x r]; [reflexivity|]. cbn [take_list]. pose proof (apart_in [k] ks' x F R) as N. unfold str_in, memb in N. cbn [existsb] in N. rewrite orb_false_r in N. rewrite N. reflexivity.
Qed.
Lemma read_rule_words r log : rule_good r -> read_rule (rule_words r log) = Some r.
Proof.
  intros [G1 G2 G3 (L1 & L2 & L3 & L4 & L5 & L6 & L7) G5]. destruct r as [action dir quick on family proto src sport dst dport flags types types6 state].
  unfold rule_words. cbn [pr_action pr_dir pr_quick pr_if pr_family pr_proto pr_src pr_sport pr_dst pr_dport pr_flags pr_types pr_types6 pr_state] in *.
  set (s := state_words state).
  assert (Hs : heads ["keep"; "no"] s) by (subst s; destruct state as [w|]; [exact (G5 w eq_refl)|exact Logic.I]).
  set (e := optl "icmp6-type" types6 ++ s).
  assert (He : heads ["icmp6-type"; "keep"; "no"] e) by (apply heads_app; [apply heads_optl; left; reflexivity|eapply heads_weak; [|exact Hs]; reflexivity]).
  set (d := optl "icmp-type" types ++ e).
  assert (Hd : heads ["icmp-type"; "icmp6-type"; "keep"; "no"] d) by (apply heads_app; [apply heads_optl; left; reflexivity|eapply heads_weak; [|exact He]; reflexivity]).
  set (c := optk "flags" flags ++ d).
  assert (Hc : heads ["flags"; "icmp-type"; "icmp6-type"; "keep"; "no"] c) by (apply heads_app; [apply heads_optk; left; reflexivity|eapply heads_weak; [|exact Hd]; reflexivity]).
  set (b := optl "port" dport ++ c).
  assert (Hb : heads ["port"; "flags"; "icmp-type"; "icmp6-type"; "keep"; "no"] b) by (apply heads_app; [apply heads_optl; left; reflexivity|eapply heads_weak; [|exact Hc]; reflexivity]).
  set (a := optl "to" (Some dst) ++ b).
  assert (Ha : heads ["to"] a) by (left; reflexivity).
  set (p := optl "port" sport ++ a).
  assert (Hp : heads ["port"; "to"] p) by (apply heads_app; [apply heads_optl; left; reflexivity|eapply heads_weak; [|exact Ha]; reflexivity]).
  set (f := optl "from" (Some src) ++ p).
  assert (Hf : heads ["from"] f) by (left; reflexivity).
  set (q := optl "proto" proto ++ f).
  assert (Hq : heads ["proto"; "from"] q) by (apply heads_app; [apply heads_optl; left; reflexivity|eapply heads_weak; [|exact Hf]; reflexivity]).
  set (m := opt1 family ++ q).
  assert (Hm : heads ["inet"; "inet6"; "proto"; "from"] m).
  { apply heads_app; [apply heads_opt1; intros w E; specialize (G3 w E); destruct G3 as [<-|[<-|[]]]; [left|right; left]; reflexivity|eapply heads_weak; [|exact Hq]; reflexivity]. }
  set (o := optk "on" on ++ m).
  assert (Ho : heads ["on"; "inet"; "inet6"; "proto"; "from"] o) by (apply heads_app; [apply heads_optk; left; reflexivity|eapply heads_weak; [|exact Hm]; reflexivity]).
  set (lg := flag "log" log ++ o).
  assert (Hl : heads ["log"; "on"; "inet"; "inet6"; "proto"; "from"] lg) by (apply heads_app; [apply heads_flag; left; reflexivity|eapply heads_weak; [|exact Ho]; reflexivity]).
  set (k := flag "quick" quick ++ lg).
  assert (Hk : heads ["quick"; "log"; "on"; "inet"; "inet6"; "proto"; "from"] k) by (apply heads_app; [apply heads_flag; left; reflexivity|eapply heads_weak; [|exact Hl]; reflexivity]).
  set (z := opt1 dir ++ k).
  assert (A : read_action (split_ws action ++ z) = Some (action, z)) by (destruct G1 as [<-|[<-|[<-|[]]]]; reflexivity).
  unfold read_rule. rewrite A. cbv beta iota. unfold z.
  rewrite (take_opt ["in"; "out"] _ dir k G2 Hk eq_refl). unfold k. rewrite (take_flag "quick" _ quick lg Hl eq_refl). unfold lg. rewrite (take_flag "log" _ log o Ho eq_refl).
  unfold o. rewrite (take_key "on" _ on m Hm eq_refl). unfold m. rewrite (take_opt ["inet"; "inet6"] _ family q G3 Hq eq_refl).
  unfold q. rewrite (take_lst "proto" _ proto f L1 Hf eq_refl). unfold f. rewrite (take_lst "from" _ (Some src) p L2 Hp eq_refl). unfold p. rewrite (take_lst "port" _ sport a L3 Ha eq_refl).
  unfold a. rewrite (take_lst "to" _ (Some dst) b L4 Hb eq_refl). unfold b. rewrite (take_lst "port" _ dport c L5 Hc eq_refl). unfold c. rewrite (take_key "flags" _ flags d Hd eq_refl).
  unfold d. rewrite (take_lst "icmp-type" _ types e L6 He eq_refl). unfold e. rewrite (take_lst "icmp6-type" _ types6 s L7 Hs eq_refl).
  assert (S : read_state s = Some state).
  { subst s. destruct state as [w|]; [|reflexivity]. destruct (G5 w eq_refl) as [<-|[<-|[]]]; reflexivity. }
  rewrite S. destruct quick; reflexivity.
Qed.

(** ** The rule of a term *)
Definition opt_if {A} (b : bool) (x : A) : option A := if b then Some x else None.
Definition types_of (proto : string) (ps : list string) (types : option (list Z)) : option (list string) :=
  match types with Some l => opt_if (str_in proto ps && some l) (map dec l) | None => None end.
Definition rule_of (e : pf_entry) (act action : string) (src dst protos : list string) (flags : list string * list string) (types : option (list Z)) : pf_rule :=
  let t := pe_term e in
  let ps := map pval_text (pe_protocol e) in
  mkPfRule action (opt_if (negb (is_empty (pe_dir e))) (pe_dir e)) (negb (String.eqb act "next")) (pe_if e) (opt_if (negb (String.eqb (pe_af e) "mixed")) (pe_af e))
    (opt_if (some ps) protos) src (opt_if (some (t_source_port t)) (first_seen [] (map pf_port (t_source_port t))))
    dst (opt_if (some (t_destination_port t)) (first_seen [] (map pf_port (t_destination_port t))))
    (opt_if (some (fst flags) && some (snd flags)) (join "" (fst flags) ++ "/" ++ join "" (snd flags))%string)
    (types_of "icmp" ps types) (types_of "icmpv6" ps types)
    (if negb (pe_stateful e) then Some "no" else if str_in act ["accept"; "next"] then Some "keep" else None).
Definition port_range (r : prange) : Prop := 0 <= fst r /\ 0 <= snd r.
Lemma digit_pf c : is_digit c = true -> pf_char c = true.
Proof. destruct c as [b0 b1 b2 b3 b4 b5 b6 b7]. destruct b0, b1, b2, b3, b4, b5, b6, b7; vm_compute; congruence. Qed.
Lemma addrc_pf c : is_addrc c = true -> pf_char c = true.
Proof. destruct c as [b0 b1 b2 b3 b4 b5 b6 b7]. destruct b0, b1, b2, b3, b4, b5, b6, b7; vm_compute; congruence. Qed.
Lemma dec_pf n : 0 <= n -> pf_word (dec n).
Proof. intros H. split; [apply dec_nonempty|]. eapply forall_char_impl; [apply digit_pf|apply dec_digits, H]. Qed.
Lemma pf_cat a b : pf_word a -> forall_char pf_char b = true -> pf_word (a ++ b).
Proof. intros (N & F) G. split; [destruct a; [congruence|discriminate]|]. rewrite forall_char_app, F, G. reflexivity. Qed.
Lemma prefix_pf n : valid n -> pf_word (prefixlen_text n).
Proof.
  intros (Hl & Ha & _). unfold prefixlen_text. apply pf_cat.
  - split; [apply (addr_text_nonempty _ _ Ha)|]. eapply forall_char_impl; [apply addrc_pf|apply addr_text_chars].
  - change (append "/" (dec (nlen n))) with (String "/" (dec (nlen n))). cbn [forall_char]. apply dec_pf. lia.
Qed.
Lemma port_pf r : port_range r -> pf_word (pf_port r).
Proof.
  intros (A & B). unfold pf_port. destruct (fst r =? snd r); [apply dec_pf, A|]. apply pf_cat; [apply dec_pf, A|].
  change (":" ++ dec (snd r))%string with (String ":" (dec (snd r))). cbn [forall_char]. apply dec_pf, B.
Qed.
Lemma first_seen_in l : forall seen x, In x (first_seen seen l) <-> In x l /\ ~ In x seen.
Proof.
  induction l as [|a l IH]; intros seen x; cbn [first_seen]; [split; [intros []|intros ([] & _)]|].
  destruct (str_in a seen) eqn:E.
  - apply str_in_spec in E. rewrite IH. split; [intros (I & N); split; [right; exact I|exact N]|]. intros ([<-|I] & N); [contradiction|auto].
  - assert (Na : ~ In a seen) by (intros I; apply str_in_spec in I; congruence). cbn [In]. rewrite IH. split.
    + intros [<-|(I & N)]; [split; [left; reflexivity|exact Na]|]. split; [right; exact I|intros J; apply N; right; exact J].
    + intros ([<-|I] & N); [left; reflexivity|]. destruct (string_dec a x) as [X|X]; [left; exact X|right]. split; [exact I|]. intros [J|J]; contradiction.
Qed.
Lemma first_seen_nil l x : In x (first_seen [] l) <-> In x l.
Proof. rewrite first_seen_in. split; [intros (I & _); exact I|intros I; split; [exact I|intros []]]. Qed.
Lemma ports_seg l : (forall r, In r l -> port_range r) -> seg (pf_ports l) ("{" :: first_seen [] (map pf_port l) ++ ["}"]).
Proof.
  intros H. apply seg_braces, seg_words. intros w I. apply first_seen_nil, in_map_iff in I. destruct I as (r & <- & I). apply port_pf, H, I.
Qed.

Definition segs (l : list string) (ws : list string) : Prop := exists wss, Forall2 seg l wss /\ concat wss = ws.
Lemma segs_nil : segs [] [].
Proof. exists []. split; [constructor|reflexivity]. Qed.
Lemma segs_one s ws : seg s ws -> segs [s] ws.
Proof. intros H. exists [ws]. split; [constructor; [exact H|constructor]|apply app_nil_r]. Qed.
Lemma segs_app a b x y : segs a x -> segs b y -> segs (a ++ b) (x ++ y).
Proof. intros (u & U1 & U2) (v & V1 & V2). exists (u ++ v). split; [apply Forall2_app; assumption|]. rewrite concat_app, U2, V2. reflexivity. Qed.
Lemma segs_join l ws : segs l ws -> seg (join " " l) ws.
Proof. intros (u & U & <-). apply seg_join, U. Qed.
Lemma segs_if (b : bool) l ws : (b = true -> segs l ws) -> segs (if b then l else []) (if b then ws else []).
Proof. destruct b; intros H; [apply H; reflexivity|apply segs_nil]. Qed.

(** The parts from which the line is made. *)
Record line_good (e : pf_entry) (act action src dst proto : string) (flags : list string * list string) (types : option (list Z)) (srcs dsts protos : list string) : Prop := {
  lg_action : assoc act pf_actions = Some action;
  lg_dir : In (pe_dir e) [""; "in"; "out"];
  lg_if : forall i, pe_if e = Some i -> pf_word i;
  lg_af : In (pe_af e) ["inet"; "inet6"; "mixed"];
  lg_src : seg src ("{" :: srcs ++ ["}"]) /\ ~ In "}" srcs;
  lg_dst : seg dst ("{" :: dsts ++ ["}"]) /\ ~ In "}" dsts;
  lg_proto : some (map pval_text (pe_protocol e)) = true -> seg proto ("proto" :: "{" :: protos ++ ["}"]) /\ ~ In "}" protos;
  lg_ports : forall r, In r (t_source_port (pe_term e) ++ t_destination_port (pe_term e)) -> port_range r;
  lg_flags : pf_word (join "" (fst flags) ++ "/" ++ join "" (snd flags))%string;
  lg_types : forall l n, types = Some l -> In n l -> 0 <= n }.
Lemma pf_not_brace w : pf_word w -> w <> "}".
Proof. intros (_ & H) ->. discriminate H. Qed.
Lemma types_seg key proto ps types : pf_word key -> (forall l n, types = Some l -> In n l -> 0 <= n) -> segs (pf_type_words key proto ps types) (optl key (types_of proto ps types)).
Proof.
  intros K H. unfold pf_type_words, types_of. destruct types as [l|]; [|apply segs_nil]. unfold opt_if. destruct (str_in proto ps && some l); [|apply segs_nil].
  apply segs_one. change (key ++ " { " ++ join ", " (map dec l) ++ " }")%string with (key ++ " " ++ ("{ " ++ join ", " (map dec l) ++ " }"))%string. apply seg_key; [exact K|].
  apply seg_braces, seg_commas. intros w I. apply in_map_iff in I. destruct I as (n & <- & I). apply dec_pf, (H l n eq_refl I).
Qed.
Lemma ports_segs l : (forall r, In r l -> port_range r) -> segs (if some l then [("port " ++ pf_ports l)%string] else []) (optl "port" (opt_if (some l) (first_seen [] (map pf_port l)))).
Proof.
  intros H. destruct (some l); [|apply segs_nil]. apply segs_one. change ("port " ++ pf_ports l)%string with ("port" ++ " " ++ pf_ports l)%string.
  apply seg_key; [apply lit; reflexivity|]. apply ports_seg, H.
Qed.
Lemma line_seg e act action src dst proto flags types srcs dsts protos : line_good e act action src dst proto flags types srcs dsts protos ->
  seg (pf_line e act action src dst proto flags types) (rule_words (rule_of e act action srcs dsts protos flags types) (some (t_logging (pe_term e)))).
Proof.
  intros [G1 G2 G3 G4 (G5 & _) (G6 & _) G7 G8 G9 G10]. unfold pf_line, rule_words, rule_of. apply segs_join.
  cbn [pr_action pr_dir pr_quick pr_if pr_family pr_proto pr_src pr_sport pr_dst pr_dport pr_flags pr_types pr_types6 pr_state].
  apply segs_app; [|apply segs_app; [|apply segs_app; [|apply segs_app; [|apply segs_app; [|apply segs_app; [|apply segs_app; [|apply segs_app; [|apply segs_app; [|apply segs_app; [|apply segs_app; [|apply segs_app; [|apply segs_app; [|apply segs_app]]]]]]]]]]]]].
  - apply segs_one. assert (I : In action ["pass"; "block drop"; "block return"]).
    { unfold pf_actions in G1. cbn [assoc] in G1.
      repeat (destruct (String.eqb _ _) in G1; [injection G1 as <-; cbn; auto|]). discriminate G1. }
    destruct I as [<-|[<-|[<-|[]]]]; [apply seg_word, lit; reflexivity|..].
    + exact (seg_space "block" "drop" _ _ (seg_word _ (lit "block" eq_refl)) (seg_word _ (lit "drop" eq_refl))).
    + exact (seg_space "block" "return" _ _ (seg_word _ (lit "block" eq_refl)) (seg_word _ (lit "return" eq_refl))).
  - destruct G2 as [<-|[<-|[<-|[]]]]; [apply segs_nil|apply segs_one, seg_word, lit; reflexivity|apply segs_one, seg_word, lit; reflexivity].
  - destruct (String.eqb act "next"); [apply segs_nil|apply segs_one, seg_word, lit; reflexivity].
  - destruct (some (t_logging (pe_term e))); [apply segs_one, seg_word, lit; reflexivity|apply segs_nil].
  - destruct (pe_if e) as [i|]; [|apply segs_nil]. apply segs_one. change ("on " ++ i)%string with ("on" ++ " " ++ i)%string.
    apply seg_key; [apply lit; reflexivity|]. apply seg_word, G3. reflexivity.
  - destruct G4 as [<-|[<-|[<-|[]]]]; [apply segs_one, seg_word, lit; reflexivity|apply segs_one, seg_word, lit; reflexivity|apply segs_nil].
  - destruct (some (map pval_text (pe_protocol e))); [|apply segs_nil]. apply segs_one. apply G7. reflexivity.
  - apply segs_one. change ("from " ++ src)%string with ("from" ++ " " ++ src)%string. apply seg_key; [apply lit; reflexivity|exact G5].
  - apply ports_segs. intros r I. apply G8, in_or_app. left. exact I.
  - apply segs_one. change ("to " ++ dst)%string with ("to" ++ " " ++ dst)%string. apply seg_key; [apply lit; reflexivity|exact G6].
  - apply ports_segs. intros r I. apply G8, in_or_app. right. exact I.
  - destruct (some (fst flags) && some (snd flags)); [|apply segs_nil]. apply (segs_app ["flags"] [_] ["flags"] [_]); apply segs_one, seg_word; [apply lit; reflexivity|exact G9].
  - apply types_seg; [apply lit; reflexivity|exact G10].
  - apply types_seg; [apply lit; reflexivity|exact G10].
  - destruct (negb (pe_stateful e)); [exact (segs_one _ _ (seg_space "no" "state" _ _ (seg_word _ (lit "no" eq_refl)) (seg_word _ (lit "state" eq_refl))))|].
    destruct (str_in act ["accept"; "next"]); [|apply segs_nil].
    exact (segs_one _ _ (seg_space "keep" "state" _ _ (seg_word _ (lit "keep" eq_refl)) (seg_word _ (lit "state" eq_refl)))).
Qed.
Lemma rule_read e act action src dst proto flags types srcs dsts protos : line_good e act action src dst proto flags types srcs dsts protos ->
  rule_good (rule_of e act action srcs dsts protos flags types).
Proof.
  intros [G1 G2 G3 G4 (_ & G5) (_ & G6) G7 G8 G9 G10]. unfold rule_of.
  constructor; cbn [pr_action pr_dir pr_quick pr_if pr_family pr_proto pr_src pr_sport pr_dst pr_dport pr_flags pr_types pr_types6 pr_state].
  - unfold pf_actions in G1. cbn [assoc] in G1. repeat (destruct (String.eqb _ _) in G1; [injection G1 as <-; cbn; auto|]). discriminate G1.
  - intros w. destruct G2 as [<-|[<-|[<-|[]]]]; unfold opt_if; cbn; intros E; [discriminate E|..]; injection E as <-; cbn; auto.
  - intros w. destruct G4 as [<-|[<-|[<-|[]]]]; unfold opt_if; cbn; intros E; [..|discriminate E]; injection E as <-; cbn; auto.
  - assert (P : forall l, (forall r, In r l -> port_range r) -> listed (opt_if (some l) (first_seen [] (map pf_port l)))).
    { intros l H x. unfold opt_if. destruct (some l); [|discriminate]. intros E. injection E as <-. intros I. apply first_seen_nil, in_map_iff in I.
      destruct I as (r & E & I). exact (pf_not_brace _ (port_pf r (H r I)) E). }
    assert (T : forall q ps, listed (types_of q ps types)).
    { intros q ps x. unfold types_of, opt_if. destruct types as [l|]; [|discriminate]. destruct (str_in q ps && some l); [|discriminate]. intros E. injection E as <-. intros I.
      apply in_map_iff in I. destruct I as (n & E & I). exact (pf_not_brace _ (dec_pf n (G10 l n eq_refl I)) E). }
    split; [|split; [|split; [|split; [|split; [|split]]]]].
    + intros x. unfold opt_if. destruct (some (map pval_text (pe_protocol e))); [|discriminate]. intros E. injection E as <-. apply G7. reflexivity.
    + intros x E. injection E as <-. exact G5.
    + apply P. intros r I. apply G8, in_or_app. left. exact I.
    + intros x E. injection E as <-. exact G6.
    + apply P. intros r I. apply G8, in_or_app. right. exact I.
    + apply T.
    + apply T.
  - intros w. destruct (negb (pe_stateful e)); [intros E; injection E as <-; cbn; auto|]. destruct (str_in act ["accept"; "next"]); [intros E; injection E as <-; cbn; auto|discriminate].
Qed.
