(** The sections of Aruba configurations, and the decisions of their lists. *)
From Coq Require Import Lia ZifyBool ZifyNat.
From Verif Require Import SpecAruba BaseFacts IPFacts PyStrFacts TextProofs WrapProofs CiscoProofs CiscoProofs2 CiscoTerm CiscoAcl CiscoDup CiscoGroupRead CiscoGroupTerm CiscoGroupAcl QuietTerm ArubaProofs ArubaAcl.
Local Open Scope string_scope.
Local Open Scope list_scope.
Local Open Scope Z_scope.

Definition areads (lines : list string) (items : list aitem) : Prop :=
  forall rest, read_aruba AOut (map split_ws lines ++ rest) = option_map (app items) (read_aruba AOut rest).
Lemma areads_nil : areads [] [].
Proof. intros rest. cbn [map app]. destruct (read_aruba AOut rest); reflexivity. Qed.
Lemma areads_app a b i j : areads a i -> areads b j -> areads (a ++ b) (i ++ j).
Proof. intros A B rest. rewrite map_app, <- app_assoc, A, B. destruct (read_aruba AOut rest); cbn [option_map]; [rewrite app_assoc|]; reflexivity. Qed.
Lemma areads_concat {A} (f : A -> list string) (g : A -> list aitem) l : (forall x, In x l -> areads (f x) (g x)) -> areads (concat (map f l)) (concat (map g l)).
Proof.
  induction l as [|x l IH]; intros H; [exact areads_nil|]. cbn [map concat]. apply areads_app; [apply H; left; reflexivity|apply IH; intros y I; apply H; right; exact I].
Qed.
Lemma areads_idle l : rules_of l = [] -> areads l [].
Proof.
  intros H rest. induction l as [|x l IH]; [cbn [map app]; destruct (read_aruba AOut rest); reflexivity|].
  unfold rules_of in H. cbn [map filter] in H. destruct (idle (split_ws x)) eqn:E; [|discriminate H]. cbn [map app read_aruba]. rewrite E. apply IH. exact H.
Qed.
Lemma read_dest v n body rest : (forall ws, In ws body -> idle ws = false /\ section_end ws = false) -> forall ms,
  read_aruba (AInDest v n ms) (body ++ ["!"] :: rest) = option_map (cons (ADest v n (ms ++ body))) (read_aruba AOut rest).
Proof.
  induction body as [|ws body IH]; intros H ms; cbn [app read_aruba].
  - rewrite app_nil_r. reflexivity.
  - destruct (H ws (or_introl eq_refl)) as (-> & ->). rewrite IH by (intros x I; apply H; right; exact I). rewrite <- app_assoc. reflexivity.
Qed.
Lemma read_list n body rest : (forall ws, In ws body -> idle ws = true \/ section_end ws = false) -> forall rs,
  read_aruba (AInList n rs) (body ++ ["!"] :: rest) = option_map (cons (AList n (rs ++ filter (fun ws => negb (idle ws)) body))) (read_aruba AOut rest).
Proof.
  induction body as [|ws body IH]; intros H rs; cbn [app read_aruba filter].
  - rewrite app_nil_r. reflexivity.
  - destruct (idle ws) eqn:E; cbn [negb]; [apply IH; intros x I; apply H; right; exact I|]. destruct (H ws (or_introl eq_refl)) as [X|X]; [congruence|]. rewrite X.
    rewrite IH by (intros x I; apply H; right; exact I). rewrite <- app_assoc. reflexivity.
Qed.
Lemma member_line n : valid n -> has_char newline ("  " ++ ar_member n)%string = false.
Proof.
  intros V. pose proof V as (Hl & _). assert (A : forall v a, has_char newline (addr_text v a) = false) by (intros v a; apply no_ws_line, addr_text_no_ws).
  assert (D : has_char newline (dec (nlen n)) = false) by (apply no_ws_line, dec_no_ws; lia).
  unfold ar_member. destruct (num_addresses n =? 1); [|destruct (nver n)]; rewrite !has_char_app, ?A, ?D; reflexivity.
Qed.
Lemma dest_reads v suffix t addrs : one_word (t_name t) -> no_ws suffix -> valid_list addrs ->
  areads (lns [dest_text v suffix t addrs]) [ADest v (lower (t_name t) ++ suffix)%string (map member_words (address_of_version addrs (Some v)))].
Proof.
  intros W S V. pose proof (id_word (t_name t) suffix W S) as Wi. set (id := (lower (t_name t) ++ suffix)%string) in *. pose proof (word_line _ Wi) as Ni.
  destruct (version_valid addrs v V) as (V' & F). unfold valid_list in V'. rewrite Forall_forall in V', F. unfold dest_text. fold id. set (own := address_of_version addrs (Some v)) in *.
  set (head := ("netdestination" ++ match v with V6 => "6" | V4 => "" end ++ " " ++ id)%string).
  assert (L : lns [ar_netdest v id own] = head :: map (fun n => ("  " ++ ar_member n)%string) own ++ ["!"; ""]).
  { unfold lns at 1. cbn [flat_map]. rewrite app_nil_r. unfold ar_netdest. fold head. rewrite split_join_lns by discriminate.
    change (head :: map (fun n => ("  " ++ ar_member n)%string) own ++ [("!" ++ lf)%string]) with ([head] ++ map (fun n => ("  " ++ ar_member n)%string) own ++ [("!" ++ lf)%string]).
    rewrite !lns_app. rewrite (lns_plain [head]), (lns_plain (map _ own)).
    - reflexivity.
    - intros x I. apply in_map_iff in I. destruct I as (n & <- & I). apply member_line, V', I.
    - intros x [<-|[]]. unfold head. rewrite !has_char_app, Ni. destruct v; reflexivity. }
  intros rest. rewrite L. cbn [map app]. rewrite map_app. cbn [map]. change (split_ws "!") with ["!"]. change (split_ws "") with (@nil string).
  assert (Hw : split_ws head = [match v with V6 => "netdestination6" | V4 => "netdestination" end; id]).
  { unfold head. destruct v.
    - change ("netdestination" ++ "" ++ " " ++ id)%string with ("netdestination" ++ " " ++ id)%string. rewrite split_ws_space, Wi. reflexivity.
    - change ("netdestination" ++ "6" ++ " " ++ id)%string with ("netdestination6" ++ " " ++ id)%string. rewrite split_ws_space, Wi. reflexivity. }
  rewrite Hw. cbn [read_aruba]. replace (idle _) with false by (destruct v; reflexivity).
  replace (section_head _) with (Some (AInDest v id [])) by (destruct v; reflexivity).
  rewrite map_map. change (map (fun x => split_ws ("  " ++ ar_member x)%string) own) with (map member_words own).
  rewrite <- app_assoc. cbn [app]. rewrite read_dest.
  - cbn [app read_aruba idle]. destruct (read_aruba AOut rest); reflexivity.
  - intros ws I. apply in_map_iff in I. destruct I as (n & <- & I). assert (X : 0 <= 0 < 2 ^ width v) by (destruct v; cbn; lia).
    destruct (member_says_net v n 0 (F n I) (V' n I) X) as (_ & A & B). auto.
Qed.
Lemma items_read v t : ar_term_ok t ->
  areads (lns (flat_map (fun x => match x with ADest _ n ms => if String.eqb n (lower (t_name t) ++ "_src") then [dest_text v "_src" t (t_source_address t)] else [dest_text v "_dst" t (t_destination_address t)] | AList _ _ => [] end) (term_items v t)))
    (term_items v t).
Proof.
  intros K. assert (Q : String.eqb (lower (t_name t) ++ "_dst") (lower (t_name t) ++ "_src") = false).
  { apply String.eqb_neq. intros X. apply suffix_inj in X; [|reflexivity]. destruct X as (_ & X). discriminate X. }
  unfold term_items. rewrite flat_map_app, lns_app. apply areads_app; unfold end_items.
  - destruct (str_in "source-is-user" (t_option t)); [exact areads_nil|]. pose proof (dest_reads v "_src" t (t_source_address t) (at_name t K) eq_refl (at_src t K)) as R.
    destruct (t_source_address t); [exact areads_nil|]. cbn [flat_map app]. rewrite String.eqb_refl. exact R.
  - destruct (str_in "destination-is-user" (t_option t)); [exact areads_nil|]. pose proof (dest_reads v "_dst" t (t_destination_address t) (at_name t K) eq_refl (at_dst t K)) as R.
    destruct (t_destination_address t); [exact areads_nil|]. cbn [flat_map app]. rewrite Q. exact R.
Qed.

(** ** A filter *)
Definition shown_b (v : ver) (user : string) (t : term) (addrs : list net) : bool :=
  str_in user (t_option t) || negb (some addrs) || some (address_of_version addrs (Some v)).
Definition both_b (v : ver) (t : term) : bool := shown_b v "source-is-user" t (t_source_address t) && shown_b v "destination-is-user" t (t_destination_address t).
Lemma shown_b_spec v user t addrs : shown_b v user t addrs = true <-> end_shown v user t addrs.
Proof.
  unfold shown_b, end_shown. rewrite !orb_true_iff, str_in_spec, or_assoc. destruct addrs; [cbn; intuition discriminate|]. cbn [some negb].
  destruct (address_of_version (n :: addrs) (Some v)); cbn [some]; intuition (congruence || discriminate).
Qed.
Lemma both_b_spec v t : both_b v t = true <-> both_shown v t.
Proof. unfold both_b, both_shown. rewrite andb_true_iff, !shown_b_spec. tauto. Qed.
Definition filter_items (v : ver) (ts : list term) : list aitem := concat (map (fun t => if both_b v t then term_items v t else []) ts).
(** The rules of one term. *)
Definition rules_for (v : ver) (t : term) (rs : list (list string)) : Prop :=
  if both_b v t then exists ps sv a rest w, term_protocols ["ipip"] (t_protocol t) = Ok ps /\ services t ps = Ok sv /\ t_action t = a :: rest /\ assoc a ar_actions = Some w /\ rs = term_rules v t sv w
  else rs = [].
Lemma lns_cons x l : lns (x :: l) = lns [x] ++ lns l.
Proof. change (x :: l) with ([x] ++ l). apply lns_app. Qed.
Lemma filter_reads v verbose name ts l : one_word name -> (forall t, In t ts -> ar_term_ok t) ->
  mapM (fun t => let! ps := term_protocols ["ipip"] (t_protocol t) in ar_term v verbose t ps) ts = Ok l ->
  exists blocks, Forall2 (rules_for v) ts blocks /\
    areads (lns (concat (map fst l) ++ [("ip access-list session " ++ name)%string] ++ map snd l ++ ["!"])) (filter_items v ts ++ [AList name (concat blocks)]).
Proof.
  intros W K H. apply mapM_forall2 in H.
  assert (X : areads (lns (concat (map fst l))) (filter_items v ts) /\ exists blocks, Forall2 (rules_for v) ts blocks /\
     rules_of (lns (map snd l)) = concat blocks /\ (forall ws, In ws (concat blocks) -> section_end ws = false)).
  { unfold filter_items. induction H as [|t r ts l E H IH]; [split; [exact areads_nil|exists []; split; [constructor|split; [reflexivity|intros ws []]]]|].
    destruct (IH (fun x I => K x (or_intror I))) as (R1 & blocks & F & R2 & R3). specialize (K t (or_introl eq_refl)).
    apply bind_ok in E. destruct E as (ps & Ep & E). destruct (ar_term_shape v verbose t ps r K E) as [(N & ->)|(B & sv & a & rest & w & Es & Ea & Ew & Ef & Er)].
    - assert (Nb : both_b v t = false) by (destruct (both_b v t) eqn:Q; [apply both_b_spec in Q; contradiction|reflexivity]). cbn [map concat fst snd]. rewrite Nb. split; [exact R1|].
      exists ([] :: blocks). split; [constructor; [unfold rules_for; rewrite Nb; reflexivity|exact F]|]. cbn [concat app]. split; [|exact R3]. rewrite lns_cons, rules_of_app, R2. reflexivity.
    - pose proof (proj2 (both_b_spec v t) B) as Nb. cbn [map concat]. rewrite Nb, lns_app. split.
      + apply areads_app; [|exact R1]. rewrite Ef. apply items_read, K.
      + assert (Sv : forall s, In s sv -> has_char newline s = false /\ is_empty s = false).
        { destruct (services_say t ps sv (mkPacket (V4, 0) (V4, 0) "" 0 0 "" 0 (fun _ => False) (fun _ => False) (fun _ => False) (fun _ => False) (fun _ => False) "0" "" 0 64 100 64 "" "" "" "" "" "" "" "" "") K Ep Es) as (_ & X). exact X. }
        exists (term_rules v t sv w :: blocks). split; [constructor; [unfold rules_for; rewrite Nb; exists ps, sv, a, rest, w; auto|exact F]|]. cbn [concat]. split.
        * rewrite lns_cons, rules_of_app, R2, (Er Sv). reflexivity.
        * intros ws I. apply in_app_or in I. destruct I as [I|I]; [|apply R3, I]. unfold term_rules in I. apply in_map_iff in I. destruct I as (s & <- & _). apply rule_words_kind. }
  destruct X as (R1 & blocks & F & R2 & R3). exists blocks. split; [exact F|]. rewrite lns_app. apply areads_app; [exact R1|].
  set (head := ("ip access-list session " ++ name)%string).
  assert (Nh : has_char newline head = false) by (unfold head; rewrite has_char_app, (word_line _ W); reflexivity).
  assert (Hw : split_ws head = ["ip"; "access-list"; "session"; name]).
  { unfold head. change ("ip access-list session " ++ name)%string with ("ip access-list session" ++ " " ++ name)%string. rewrite split_ws_space, W. reflexivity. }
  intros rest. rewrite !lns_app, !map_app. rewrite (lns_plain [head]) by (intros x [<-|[]]; exact Nh). cbn [map app]. rewrite Hw.
  change (map split_ws (lns ["!"])) with [["!"]]. rewrite <- app_assoc. cbn [app]. cbn [read_aruba idle starts_with]. 
  change (section_head ["ip"; "access-list"; "session"; name]) with (Some (AInList name [])). cbn [Ascii.eqb]. change (prefix "#" "ip") with false. cbv iota.
  rewrite read_list.
  - cbn [app]. change (filter (fun ws => negb (idle ws)) (map split_ws (lns (map snd l)))) with (rules_of (lns (map snd l))). rewrite R2. destruct (read_aruba AOut rest); reflexivity.
  - intros ws I. destruct (idle ws) eqn:E; [left; reflexivity|right]. apply R3. rewrite <- R2. unfold rules_of. apply filter_In. rewrite E. auto.
Qed.
