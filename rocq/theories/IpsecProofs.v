(** Commands for IP security policies of Windows: from the lines to the objects and back. *)
From Coq Require Import Lia ZifyBool ZifyNat.
From Verif Require Import SpecIpsec SpecWin SpecGce SpecPf BaseFacts IPFacts PyStrFacts TextProofs PolicyProofs GenProofs GenProofs2 CiscoProofs CiscoProofs2 CiscoDup CiscoGroupRead JuniperProofs JuniperTerm GceProofs GceDecide QuietTerm PfText PfRule WinProofs WinPolicy.
From Verif Require Import SpecWin SpecIpsec.
Local Open Scope string_scope.
Local Open Scope list_scope.
Local Open Scope Z_scope.

(** ** Lines *)
Definition ips_line (l : string) : option ips_command := if is_command l then ips_read_command (split_ws l) else None.
Lemma ips_read_app a b x y : ips_read a = Some x -> ips_read b = Some y -> ips_read (a ++ b) = Some (x ++ y).
Proof. unfold ips_read. rewrite filter_app, map_app. apply all_some_app. Qed.
Lemma ips_read_lines ls rs : map ips_line ls = map Some rs -> ips_read ls = Some rs.
Proof.
  unfold ips_read. revert rs. induction ls as [|l ls IH]; intros [|r rs] E; try discriminate E; [reflexivity|]. cbn [map] in E. injection E as E1 E2. unfold ips_line in E1.
  cbn [filter]. destruct (is_command l); [|discriminate E1]. cbn [map all_some]. rewrite E1. specialize (IH rs E2). rewrite IH. reflexivity.
Qed.
Lemma ips_read_silent ls : (forall l, In l ls -> is_command l = false) -> ips_read ls = Some [].
Proof. unfold ips_read. induction ls as [|l ls IH]; intros H; [reflexivity|]. cbn [filter]. rewrite (H l (or_introl eq_refl)). apply IH. intros x I. apply H. right. exact I. Qed.
Lemma word_split w : no_ws w -> w <> "" -> split_ws w = [w].
Proof. apply split_ws_word. Qed.
Lemma no_ws_app a b : no_ws a -> no_ws b -> no_ws (a ++ b)%string.
Proof. unfold no_ws. rewrite forall_char_app. intros -> ->. reflexivity. Qed.

Lemma list_line n : no_ws n -> ips_line (ips_add ("filterlist name=" ++ n ++ "-list ")) = Some (IList (n ++ "-list")).
Proof.
  intros W. unfold ips_line. change (is_command (ips_add ("filterlist name=" ++ n ++ "-list "))) with true. cbv iota.
  replace (ips_add ("filterlist name=" ++ n ++ "-list ")) with (join " " ["netsh"; "ipsec"; "static"; "add"; "filterlist"; ("name=" ++ n ++ "-list")%string; ""]) by (unfold ips_add; cbn [join]; rewrite ?str_app_assoc; reflexivity).
  rewrite CiscoProofs.split_ws_join. cbn [map concat]. rewrite (word_split ("name=" ++ n ++ "-list")); [|apply (no_ws_app "name="); [reflexivity|apply no_ws_app; [exact W|reflexivity]]|discriminate].
  reflexivity.
Qed.
Lemma action_line n a : no_ws n -> In a ["permit"; "block"] -> ips_line (ips_add ("filteraction name=" ++ n ++ "-action action=" ++ a)) = Some (IAction (n ++ "-action") a).
Proof.
  intros W I. unfold ips_line. change (is_command (ips_add ("filteraction name=" ++ n ++ "-action action=" ++ a))) with true. cbv iota.
  replace (ips_add ("filteraction name=" ++ n ++ "-action action=" ++ a)) with (join " " ["netsh"; "ipsec"; "static"; "add"; "filteraction"; ("name=" ++ n ++ "-action")%string; ("action=" ++ a)%string]) by (unfold ips_add; cbn [join]; rewrite ?str_app_assoc; reflexivity).
  rewrite CiscoProofs.split_ws_join. cbn [map concat]. rewrite (word_split ("name=" ++ n ++ "-action")); [|apply (no_ws_app "name="); [reflexivity|apply no_ws_app; [exact W|reflexivity]]|discriminate].
  destruct I as [<-|[<-|[]]]; reflexivity.
Qed.
Lemma policy_line n : no_ws n -> ips_line (ips_add ("policy name=" ++ n ++ "-policy assign=yes")) = Some (IPolicy (n ++ "-policy")).
Proof.
  intros W. unfold ips_line. change (is_command (ips_add ("policy name=" ++ n ++ "-policy assign=yes"))) with true. cbv iota.
  replace (ips_add ("policy name=" ++ n ++ "-policy assign=yes")) with (join " " ["netsh"; "ipsec"; "static"; "add"; "policy"; ("name=" ++ n ++ "-policy")%string; "assign=yes"]) by (unfold ips_add; cbn [join]; rewrite ?str_app_assoc; reflexivity).
  rewrite CiscoProofs.split_ws_join. cbn [map concat]. rewrite (word_split ("name=" ++ n ++ "-policy")); [|apply (no_ws_app "name="); [reflexivity|apply no_ws_app; [exact W|reflexivity]]|discriminate].
  reflexivity.
Qed.
Lemma rule_line f n : no_ws f -> no_ws (ips_name f n) ->
  ips_line (ips_rule f n) = Some (IRule (ips_name f n ++ "-rule") f (ips_name f n ++ "-list") (ips_name f n ++ "-action")).
Proof.
  intros Wf W. unfold ips_rule. set (m := ips_name f n) in *. unfold ips_line.
  match goal with |- (if is_command ?l then _ else _) = _ => change (is_command l) with true end. cbv iota.
  match goal with |- ips_read_command (split_ws ?l) = _ => replace l with (join " " ["netsh"; "ipsec"; "static"; "add"; "rule"; ("name=" ++ m ++ "-rule")%string; ("policy=" ++ f)%string; ("filterlist=" ++ m ++ "-list")%string; ("filteraction=" ++ m ++ "-action")%string; ""])
    by (unfold ips_add; cbn [join]; rewrite ?str_app_assoc; reflexivity) end.
  rewrite CiscoProofs.split_ws_join. cbn [map concat].
  rewrite (word_split ("name=" ++ m ++ "-rule")); [|apply (no_ws_app "name="); [reflexivity|apply no_ws_app; [exact W|reflexivity]]|discriminate].
  rewrite (word_split ("policy=" ++ f)); [|apply (no_ws_app "policy="); [reflexivity|exact Wf]|discriminate].
  rewrite (word_split ("filterlist=" ++ m ++ "-list")); [|apply (no_ws_app "filterlist="); [reflexivity|apply no_ws_app; [exact W|reflexivity]]|discriminate].
  rewrite (word_split ("filteraction=" ++ m ++ "-action")); [|apply (no_ws_app "filteraction="); [reflexivity|apply no_ws_app; [exact W|reflexivity]]|discriminate].
  reflexivity.
Qed.

(** ** Filters *)
Definition end_text (n : net) : option string := if nlen n =? 0 then None else Some (prefixlen_text n).
Definition port_shown (o : option Z) : option Z := match o with Some n => if n =? 0 then None else Some n | None => None end.
Lemma address_split dir n : no_ws dir -> valid n ->
  split_ws (ips_address dir n) = (dir ++ "addr=" ++ (if (nlen n =? 0)%Z then "any" else addr_text (nver n) (naddr n)))%string :: (if nlen n =? 0 then [] else [(dir ++ "mask=" ++ dec (nlen n))%string]).
Proof.
  intros W (Vl & Va & _). unfold ips_address. assert (N : forall s, s <> "" -> (dir ++ s)%string <> "") by (intros s E X; destruct dir; [cbn in X; congruence|discriminate X]).
  destruct (nlen n =? 0) eqn:Z.
  - replace (dir ++ "addr=any ")%string with ((dir ++ "addr=any") ++ " " ++ "")%string by (rewrite !str_app_assoc; reflexivity). rewrite split_ws_space. rewrite word_split; [|apply no_ws_app; [exact W|reflexivity]|apply N; discriminate]. reflexivity.
  - replace (dir ++ "addr=" ++ addr_text (nver n) (naddr n) ++ " " ++ dir ++ "mask=" ++ dec (nlen n))%string with ((dir ++ "addr=" ++ addr_text (nver n) (naddr n)) ++ " " ++ (dir ++ "mask=" ++ dec (nlen n)))%string by (rewrite !str_app_assoc; reflexivity).
    rewrite split_ws_space. rewrite !word_split; try (apply N; discriminate); [reflexivity| |].
    + apply no_ws_app; [exact W|]. apply (no_ws_app "mask="); [reflexivity|apply dec_no_ws; lia].
    + apply no_ws_app; [exact W|]. apply (no_ws_app "addr="); [reflexivity|apply addr_text_no_ws].
Qed.
Lemma port_words dir o : no_ws dir -> (forall n, o = Some n -> 0 <= n) ->
  concat (map split_ws (ips_port dir o)) = match port_shown o with Some n => [(dir ++ "port=" ++ dec n)%string] | None => [] end.
Proof.
  intros W H. unfold ips_port, port_shown. destruct o as [n|]; [|reflexivity]. destruct (n =? 0); [reflexivity|]. cbn [map concat]. rewrite app_nil_r. apply word_split.
  - apply no_ws_app; [exact W|]. apply (no_ws_app "port="); [reflexivity|apply dec_no_ws, H; reflexivity].
  - destruct dir; discriminate.
Qed.
Definition kv (x : string * string) : string := (fst x ++ "=" ++ snd x)%string.
Lemma settings_words d : (forall x, In x d -> has_char "=" (fst x) = false) -> settings (map kv d) = Some d.
Proof.
  unfold settings. intros H. rewrite map_map. induction d as [|(k, v) d IH]; [reflexivity|]. cbn [map all_some].
  assert (E : has_char "=" k = false) by (apply (H (k, v)); left; reflexivity). unfold kv at 1 2 3. cbn [fst snd].
  rewrite (has_char_app "=" k). change (has_char "=" ("=" ++ v)) with true. rewrite orb_true_r.
  change ("=" ++ v)%string with (String "=" v). rewrite (before_char_app "=" k (String "=" v) E), (after_char_app "=" k (String "=" v) E).
  change (before_char "=" (String "=" v)) with "". change (after_char "=" (String "=" v)) with v. rewrite str_app_nil, IH; [reflexivity|]. intros x I. apply H. right. exact I.
Qed.
Definition filter_keys : list string := ["filterlist"; "mirrored"; "srcaddr"; "srcmask"; "dstaddr"; "dstmask"; "srcport"; "dstport"; "protocol"].
Lemma filter_object d : forallb (fun k => str_in k filter_keys) (map fst d) = true -> distinct (map fst d) = true -> read_object "filter" d = read_match d.
Proof.
  intros A B. unfold read_object. change (String.eqb "filter" "policy") with false. change (String.eqb "filter" "filterlist") with false. change (String.eqb "filter" "filteraction") with false. change (String.eqb "filter" "filter") with true.
  cbv iota. fold filter_keys. unfold only_keys. rewrite B. rewrite forallb_forall in A.
  assert (E : forallb (fun x : string * string => str_in (fst x) filter_keys) d = true) by (apply forallb_forall; intros x I; apply A, in_map, I). rewrite E. reflexivity.
Qed.
Lemma match_reads l a am b bm sp dp q x y :
  In q ["any"; "icmp"; "tcp"; "udp"] -> (sp = None /\ dp = None \/ In q ["tcp"; "udp"]) -> read_number sp = Some x -> read_number dp = Some y ->
  (am = None -> a = "any") -> (bm = None -> b = "any") ->
  let o k v := match v with Some v => [(k, v)] | None => [] end in
  ips_read_command (["netsh"; "ipsec"; "static"; "add"; "filter"] ++ map kv ([("filterlist", l); ("mirrored", "yes"); ("srcaddr", a)] ++ o "srcmask" am ++ [("dstaddr", b)] ++ o "dstmask" bm ++ o "srcport" sp ++ o "dstport" dp ++ [("protocol", q)]))
  = Some (IFilter l (mkIpsMatch (match am with Some m => Some (a ++ "/" ++ m)%string | None => None end) (match bm with Some m => Some (b ++ "/" ++ m)%string | None => None end) x y q)).
Proof.
  intros Iq Hp Rs Rd Ha Hb o. unfold ips_read_command.
  match goal with |- context [map kv ?l] => set (d := l) end.
  change (firstn 4 (["netsh"; "ipsec"; "static"; "add"; "filter"] ++ map kv d)) with ["netsh"; "ipsec"; "static"; "add"].
  change (skipn 4 (["netsh"; "ipsec"; "static"; "add"; "filter"] ++ map kv d)) with ("filter" :: map kv d).
  change (list_str_eqb ["netsh"; "ipsec"; "static"; "add"] ["netsh"; "ipsec"; "static"; "add"]) with true. cbv iota.
  rewrite settings_words.
  2: { intros z I. unfold d, o in I. destruct am, bm, sp, dp; cbn [app In] in I; repeat (destruct I as [<-|I]; [reflexivity|]); destruct I. }
  rewrite filter_object; [|unfold d, o; destruct am, bm, sp, dp; reflexivity|unfold d, o; destruct am, bm, sp, dp; reflexivity].
  assert (E1 : assoc "filterlist" d = Some l) by reflexivity. assert (E2 : assoc "mirrored" d = Some "yes") by reflexivity. assert (E3 : assoc "srcaddr" d = Some a) by reflexivity.
  assert (E4 : assoc "srcmask" d = am) by (unfold d, o; destruct am, bm, sp, dp; reflexivity). assert (E5 : assoc "dstaddr" d = Some b) by (unfold d, o; destruct am, bm, sp, dp; reflexivity).
  assert (E6 : assoc "dstmask" d = bm) by (unfold d, o; destruct am, bm, sp, dp; reflexivity). assert (E7 : assoc "srcport" d = sp) by (unfold d, o; destruct am, bm, sp, dp; reflexivity).
  assert (E8 : assoc "dstport" d = dp) by (unfold d, o; destruct am, bm, sp, dp; reflexivity). assert (E9 : assoc "protocol" d = Some q) by (unfold d, o; destruct am, bm, sp, dp; reflexivity).
  unfold read_match. rewrite E1, E2, E3, E4, E5, E6, E7, E8, E9, Rs, Rd. unfold read_end.
  assert (Tq : str_in q ["any"; "icmp"; "tcp"; "udp"] = true) by (apply str_in_spec, Iq).
  assert (Pq : ((match x, y with None, None => true | _, _ => false end) || str_in q ["tcp"; "udp"]) = true).
  { destruct Hp as [(-> & ->)|I]; [cbn in Rs, Rd; injection Rs as <-; injection Rd as <-; reflexivity|]. apply str_in_spec in I. rewrite I. apply orb_true_r. }
  rewrite Tq, Pq. change (String.eqb "yes" "yes") with true.
  destruct am, bm; rewrite ?(Ha eq_refl), ?(Hb eq_refl); reflexivity.
Qed.
Lemma filter_line n s d q sp dp : no_ws n -> valid s -> valid d -> In q ["any"; "icmp"; "tcp"; "udp"] -> (forall x, sp = Some x -> 0 <= x) -> (forall x, dp = Some x -> 0 <= x) ->
  (port_shown sp = None /\ port_shown dp = None \/ In q ["tcp"; "udp"]) ->
  ips_line (ips_filter n s d q sp dp) = Some (IFilter (n ++ "-list") (mkIpsMatch (end_text s) (end_text d) (port_shown sp) (port_shown dp) q)).
Proof.
  intros W Vs Vd Iq Hs Hd Hp. unfold ips_line. unfold ips_filter.
  match goal with |- (if is_command ?l then _ else _) = _ => change (is_command l) with true end. cbv iota.
  assert (Eq : is_empty q = false) by (destruct Iq as [<-|[<-|[<-|[<-|[]]]]]; reflexivity). rewrite Eq.
  set (atoms := [ips_address "src" s; ips_address "dst" d] ++ ips_port "src" sp ++ ips_port "dst" dp ++ [("protocol=" ++ q)%string]).
  replace (ips_add ("filter filterlist=" ++ n ++ "-list mirrored=yes " ++ join " " atoms)) with (join " " (["netsh"; "ipsec"; "static"; "add"; "filter"; ("filterlist=" ++ n ++ "-list")%string; "mirrored=yes"] ++ atoms))
    by (unfold ips_add, atoms; cbn [join app]; rewrite ?str_app_assoc; reflexivity).
  rewrite CiscoProofs.split_ws_join, map_app, concat_app. unfold atoms. rewrite !map_app, !concat_app.
  rewrite (port_words "src" sp eq_refl Hs), (port_words "dst" dp eq_refl Hd). cbn [map concat]. rewrite (address_split "src" s eq_refl Vs), (address_split "dst" d eq_refl Vd).
  rewrite (word_split ("filterlist=" ++ n ++ "-list")); [|apply (no_ws_app "filterlist="); [reflexivity|apply no_ws_app; [exact W|reflexivity]]|discriminate].
  rewrite (word_split ("protocol=" ++ q)); [|apply (no_ws_app "protocol="); [reflexivity|destruct Iq as [<-|[<-|[<-|[<-|[]]]]]; reflexivity]|discriminate].
  assert (Dv : forall o, (forall x, o = Some x -> 0 <= x) -> read_number (option_map dec (port_shown o)) = Some (port_shown o)).
  { intros o H. destruct o as [y|]; [|reflexivity]. cbn [port_shown]. destruct (y =? 0); [reflexivity|]. cbn [option_map read_number]. rewrite dec_value by (apply H; reflexivity). reflexivity. }
  pose proof (match_reads (n ++ "-list") (if nlen s =? 0 then "any" else addr_text (nver s) (naddr s)) (if nlen s =? 0 then None else Some (dec (nlen s)))
    (if nlen d =? 0 then "any" else addr_text (nver d) (naddr d)) (if nlen d =? 0 then None else Some (dec (nlen d))) (option_map dec (port_shown sp)) (option_map dec (port_shown dp)) q _ _ Iq
    ltac:(destruct Hp as [(-> & ->)|I]; auto) (Dv sp Hs) (Dv dp Hd) ltac:(destruct (nlen s =? 0); [reflexivity|discriminate]) ltac:(destruct (nlen d =? 0); [reflexivity|discriminate])) as R.
  cbv zeta in R. unfold end_text, prefixlen_text.
  destruct (nlen s =? 0), (nlen d =? 0), (port_shown sp) as [x|], (port_shown dp) as [y|]; exact R.
Qed.

(** ** What a filter says *)
Lemma end_covers x n : valid n -> nver n = V4 -> fst x = V4 -> 0 <= snd x < 2 ^ 32 -> end_says x (end_text n) <-> covers n x.
Proof.
  intros V E Ex On. assert (On' : on_net x) by (unfold on_net; rewrite Ex; exact On). unfold end_says, end_text. destruct (nlen n =? 0) eqn:Z.
  - split; [|intros _ w X; discriminate X]. intros _. apply (address_text x n V4 V On' Ex (fun _ => E)). unfold address_says, adv_address. rewrite Z. left. reflexivity.
  - rewrite <- (GceProofs.range_text n x V On'). unfold range_has. split; [intros H; apply H; reflexivity|]. intros H w Ew. injection Ew as <-. exact H.
Qed.
Lemma port_values l : (l = [] \/ exists lo hi, l = [(lo, hi)] /\ 0 < lo) ->
  (forall o x, In o (ips_ports l) -> o = Some x -> 0 < x) /\ (l = [] -> ips_ports l = [None]) /\
  forall n, (exists o, In o (ips_ports l) /\ forall x, port_shown o = Some x -> n = x) <-> ports_match l n.
Proof.
  intros [->|(lo & hi & -> & L)].
  - split; [intros o x [<-|[]] E; discriminate E|]. split; [reflexivity|]. intros n. split; [intros _; left; reflexivity|]. intros _. exists None. split; [left; reflexivity|]. intros x E. discriminate E.
  - unfold ips_ports. cbn [fold_left fst snd]. assert (I : forall o, In o (map (fun i => Some (lo + Z.of_nat i)) (seq 0 (Z.to_nat (hi + 1 - lo)))) <-> exists n, o = Some n /\ lo <= n <= hi).
    { intros o. rewrite in_map_iff. split.
      - intros (i & <- & I). apply in_seq in I. eexists. split; [reflexivity|]. lia.
      - intros (n & -> & B). exists (Z.to_nat (n - lo)). split; [f_equal; lia|]. apply in_seq. lia. }
    split; [intros o x J E; apply I in J; destruct J as (n & -> & B); injection E as <-; lia|]. split; [discriminate|]. intros n. unfold ports_match. split.
    + intros (o & J & S). apply I in J. destruct J as (m & -> & B). right. exists (lo, hi). split; [left; reflexivity|]. unfold SpecPorts.in_range. cbn [fst snd].
      cbn [port_shown] in S. destruct (m =? 0) eqn:Z; [lia|]. rewrite (S m eq_refl). lia.
    + intros [X|(r & [<-|[]] & B)]; [discriminate X|]. unfold SpecPorts.in_range in B. cbn [fst snd] in B. exists (Some n). split; [apply I; exists n; split; [reflexivity|lia]|].
      cbn [port_shown]. destruct (n =? 0); intros x E; [discriminate E|congruence].
Qed.
Lemma filters_read L ls : (forall l, In l ls -> exists m, ips_line l = Some (IFilter L m)) ->
  exists ms, map ips_line ls = map Some (map (IFilter L) ms) /\ forall m, In m ms <-> exists l, In l ls /\ ips_line l = Some (IFilter L m).
Proof.
  induction ls as [|l ls IH]; intros H; [exists []; split; [reflexivity|intros r; split; [intros []|intros (l & [] & _)]]|].
  destruct (H l (or_introl eq_refl)) as (r & Hr). destruct (IH (fun x I => H x (or_intror I))) as (rs & E & S). exists (r :: rs). split; [cbn [map]; rewrite Hr, E; reflexivity|].
  intros x. split.
  - intros [<-|I]; [exists l; split; [left; reflexivity|exact Hr]|]. apply S in I. destruct I as (l' & I & R). exists l'. split; [right; exact I|exact R].
  - intros (l' & [<-|I] & R); [left; congruence|right; apply S; eauto].
Qed.

(** ** Terms *)
Definition ips_pre_cmds (m action : string) : list ips_command := [IList (m ++ "-list"); IAction (m ++ "-action") action].
Lemma ips_meant t : ((some (t_platform t) && negb (str_in "windows_ipsec" (t_platform t))) || (some (t_platform_exclude t) && str_in "windows_ipsec" (t_platform_exclude t))) = false <-> meant_for "windows_ipsec" t.
Proof.
  unfold meant_for. rewrite orb_false_iff. split.
  - intros (A & B). split.
    + destruct (t_platform t) as [|a l] eqn:E; [left; reflexivity|right]. cbn [some andb] in A. apply negb_false_iff in A. apply str_in_spec, A.
    + intros I. destruct (t_platform_exclude t) as [|a l] eqn:E; [destruct I|]. cbn [some andb] in B. apply str_in_spec in I. congruence.
  - intros (A & B). split.
    + destruct A as [->|I]; [reflexivity|]. apply str_in_spec in I. rewrite I. apply andb_false_r.
    + destruct (str_in "windows_ipsec" (t_platform_exclude t)) eqn:E; [apply str_in_spec in E; contradiction|apply andb_false_r].
Qed.
Lemma name_no_ws f n : no_ws f -> no_ws n -> no_ws (ips_name f n).
Proof.
  intros Wf Wn. unfold ips_name. apply no_ws_app; [|apply (no_ws_app "_"); [reflexivity|exact Wn]].
  destruct f as [|c [|c' f]]; try exact Wf. unfold no_ws in *. change (slice_to (String c (String c' f)) 1) with (String c ""). cbn [forall_char] in *. apply andb_true_iff in Wf. rewrite (proj1 Wf). reflexivity.
Qed.
Definition term_item (f : string) (t : term) (act : string) (ms : list ips_match) : Prop :=
  (exists a, t_action t = [a] /\ ips_verdict a = Some act) /\ forall p, ips_traffic p -> ((exists m, In m ms /\ match_says m p) <-> term_matches t p).
Lemma term_objects f t r : ips_term_ok t -> no_ws f -> meant_for "windows_ipsec" t -> quiet "windows_ipsec" t -> (forall a, In a (t_action t) -> In a ["accept"; "deny"]) ->
  ips_term "inet" f t = Ok r ->
  match r with
  | None => forall p, ips_traffic p -> ~ term_matches t p
  | Some ls => exists act ms, term_item f t act ms /\
      map ips_line ls = map Some (ips_pre_cmds (ips_name f (t_name t)) act ++ map (IFilter (ips_name f (t_name t) ++ "-list")) ms ++ ips_pre_cmds (ips_name f (t_name t)) act)
  end.
Proof.
  intros [Kn Kp Ki Kports Kr Ko (Ks & Kd) _] Wf M Q Ac H. unfold ips_term in H. rewrite (proj2 (ips_meant t) M) in H. change (String.eqb "inet" "inet6") with false in H. change (String.eqb "inet" "inet") with true in H. cbn [andb orb] in H.
  destruct (str_in "icmpv6" (t_protocol t)) eqn:Other.
  { apply ok_inj in H. subst r. intros p Tp Mt. apply str_in_spec in Other. apply Ki in Other. apply (quiet_matches _ t p Q (it_platform p Tp)) in Mt. destruct Mt as (_ & _ & Mp & _). rewrite Other in Mp.
    destruct Mp as [Mp|(q & [<-|[]] & Mp)]; [discriminate Mp|exact (it_icmp p Tp Mp)]. }
  destruct (t_action t) as [|act more] eqn:Ea; [discriminate H|]. assert (Ia : In act ["accept"; "deny"]) by (apply Ac; left; reflexivity).
  assert (En : String.eqb act "next" = false) by (destruct Ia as [<-|[<-|[]]]; reflexivity). rewrite En in H. destruct more as [|b more]; [|discriminate H]. cbn [some] in H.
  destruct (some (t_source_address_exclude t) || some (t_destination_address_exclude t)) eqn:Ex; [discriminate H|]. apply orb_false_iff in Ex. destruct Ex as (Ex1 & Ex2).
  assert (X1 : t_source_address_exclude t = []) by (destruct (t_source_address_exclude t); [reflexivity|discriminate Ex1]). assert (X2 : t_destination_address_exclude t = []) by (destruct (t_destination_address_exclude t); [reflexivity|discriminate Ex2]).
  cbv zeta in H. destruct (negb _ && _) in H; [discriminate H|]. destruct (t_icmp_type t) as [|ty tys] eqn:Et; [|discriminate H]. cbn [some] in H.
  destruct (assoc act ips_actions) as [action|] eqn:Eact; [|discriminate H]. apply ok_inj in H. subst r.
  assert (Wv : ips_verdict act = Some action /\ In action ["permit"; "block"]) by (destruct Ia as [<-|[<-|[]]]; cbn in Eact; injection Eact as <-; cbn; auto). destruct Wv as (Wv & Iac).
  pose proof (name_no_ws f (t_name t) Wf Kn) as Wm. set (m := ips_name f (t_name t)) in *.
  set (all := mkNet V4 0 0 "" "" "") in *. assert (Vall : valid all) by ((split; [cbn; lia|]); (split; [cbn; lia|]); exists 0; reflexivity).
  assert (Gen : forall inc, valid_list inc ->
    (forall n, In n (List.filter (fun n => ver_eqb (nver n) V4) (if some inc then inc else [all])) -> valid n) /\
    forall x, fst x = V4 -> 0 <= snd x < 2 ^ 32 -> (exists n, In n (List.filter (fun n => ver_eqb (nver n) V4) (if some inc then inc else [all])) /\ end_says x (end_text n)) <-> side_matches inc [] x).
  { intros inc Vi. unfold valid_list in Vi. rewrite Forall_forall in Vi. destruct inc as [|n0 inc].
    - split; [intros n [<-|[]]; exact Vall|]. intros x E On. split; [intros _; split; [left; reflexivity|intros (k & [] & _)]|]. intros _. exists all. split; [left; reflexivity|].
      apply (end_covers x all Vall eq_refl E On). unfold covers, size. cbn [all nver naddr nlen]. rewrite E, Z.sub_0_r. split; [reflexivity|]. change (width V4) with 32. lia.
    - cbn [some]. split; [intros n I; apply filter_In in I; apply Vi, I|]. intros x E On. split.
      + intros (n & I & S). apply filter_In in I. destruct I as (I & E4). assert (E4' : nver n = V4) by (destruct (nver n); [reflexivity|discriminate E4]). split; [|intros (k & [] & _)]. right. exists n. split; [exact I|]. apply (end_covers x n (Vi n I) E4' E On), S.
      + intros ([X|(n & I & C)] & _); [discriminate X|]. assert (E4 : nver n = V4) by (destruct C as (C & _); congruence). exists n. split; [apply filter_In; split; [exact I|rewrite E4; reflexivity]|]. apply (end_covers x n (Vi n I) E4 E On), C. }
  destruct (Gen (t_source_address t) Ks) as (V1 & S1). destruct (Gen (t_destination_address t) Kd) as (V2 & S2). clear Gen.
  set (src := List.filter (fun n => ver_eqb (nver n) V4) (if some (t_source_address t) then t_source_address t else [all])) in *.
  set (dst := List.filter (fun n => ver_eqb (nver n) V4) (if some (t_destination_address t) then t_destination_address t else [all])) in *.
  destruct (port_values (t_source_port t) (Kr _ (or_introl eq_refl))) as (P1 & N1 & M1). destruct (port_values (t_destination_port t) (Kr _ (or_intror (or_introl eq_refl)))) as (P2 & N2 & M2).
  set (qs := if some (t_protocol t) then t_protocol t else ["any"]) in *.
  assert (Iqs : forall q, In q qs -> In q ["any"; "icmp"; "tcp"; "udp"]).
  { intros q I. unfold qs in I. destruct (t_protocol t) as [|q0 ps] eqn:Ep; [destruct I as [<-|[]]; left; reflexivity|]. cbn [some] in I. pose proof (Kp q I) as K. destruct K as [<-|[<-|[<-|[<-|[]]]]]; cbn; auto.
    apply str_in_spec in I. congruence. }
  assert (Sqs : forall p, ips_traffic p -> (exists q, In q qs /\ (q = "any" \/ q = p_proto p)) <-> any_or (t_protocol t) (eq (p_proto p))).
  { intros p Tp. unfold qs, any_or. destruct (t_protocol t) as [|q0 ps] eqn:Ep.
    - split; [intros _; left; reflexivity|]. intros _. exists "any". split; [left; reflexivity|left; reflexivity].
    - cbn [some]. split.
      + intros (q & I & S). right. exists q. split; [exact I|]. destruct S as [->|S]; [|congruence]. exfalso. destruct (Kp "any" I) as [X|[X|[X|[X|[]]]]]; discriminate X.
      + intros [X|(q & I & S)]; [discriminate X|]. exists q. split; [exact I|right; congruence]. }
  assert (Rd : forall s d q sp dp, In s src -> In d dst -> In q qs -> In sp (ips_ports (t_source_port t)) -> In dp (ips_ports (t_destination_port t)) ->
    ips_line (ips_filter m s d q sp dp) = Some (IFilter (m ++ "-list") (mkIpsMatch (end_text s) (end_text d) (port_shown sp) (port_shown dp) q))).
  { intros s d q sp dp Is Id Iq Isp Idp. apply filter_line; try assumption; [apply V1, Is|apply V2, Id|apply Iqs, Iq|intros x E; pose proof (P1 sp x Isp E); lia|intros x E; pose proof (P2 dp x Idp E); lia|].
    destruct (t_source_port t) as [|r1 l1] eqn:E1; [destruct (t_destination_port t) as [|r2 l2] eqn:E2|].
    - left. rewrite (N1 eq_refl) in Isp. rewrite (N2 eq_refl) in Idp. destruct Isp as [<-|[]], Idp as [<-|[]]. split; reflexivity.
    - right. assert (N : @nil prange <> [] \/ r2 :: l2 <> []) by (right; intros X; discriminate X). destruct (Kports N) as (A & B). apply B. unfold qs in Iq. destruct (t_protocol t); [congruence|exact Iq].
    - right. assert (N : r1 :: l1 <> [] \/ t_destination_port t <> []) by (left; intros X; discriminate X). destruct (Kports N) as (A & B). apply B. unfold qs in Iq. destruct (t_protocol t); [congruence|exact Iq]. }
  match goal with |- context [ips_pre m action ++ ?l ++ ips_pre m action] => set (ls := l) end.
  assert (Il : forall l, In l ls <-> exists s d q sp dp, (In s src /\ In d dst /\ In q qs) /\ In sp (ips_ports (t_source_port t)) /\ In dp (ips_ports (t_destination_port t)) /\ l = ips_filter m s d q sp dp).
  { intros l. unfold ls. rewrite in_flat_map. split.
    - intros (s & Is & I). apply in_flat_map in I. destruct I as (d & Idd & I). apply in_flat_map in I. destruct I as (q & Iq & I). apply in_flat_map in I. destruct I as (sp & Isp & I). apply in_map_iff in I. destruct I as (dp & <- & I). exists s, d, q, sp, dp. auto 8.
    - intros (s & d & q & sp & dp & (Is & Idd & Iq) & Isp & Idp & ->). exists s. split; [exact Is|]. apply in_flat_map. exists d. split; [exact Idd|]. apply in_flat_map. exists q. split; [exact Iq|]. apply in_flat_map. exists sp. split; [exact Isp|]. apply in_map_iff. exists dp. auto. }
  destruct (filters_read (m ++ "-list") ls) as (ms & Em & Sm).
  { intros l I. apply Il in I. destruct I as (s & d & q & sp & dp & (Is & Idd & Iq) & Isp & Idp & ->). eexists. apply Rd; assumption. }
  exists action, ms. split.
  - split; [exists act; auto|]. intros p Tp. destruct (it_family p Tp) as (F1 & F2).
    rewrite (quiet_matches _ t p Q (it_platform p Tp)), X1, X2, Ko, Et, <- (S1 _ F1 (it_src p Tp)), <- (S2 _ F2 (it_dst p Tp)), <- (Sqs p Tp), <- (M1 (p_sport p)), <- (M2 (p_dport p)). split.
    + intros (x & Ix & Sx). apply Sm in Ix. destruct Ix as (l & I & Rl). apply Il in I. destruct I as (s & d & q & sp & dp & (Is & Idd & Iq) & Isp & Idp & ->). rewrite (Rd s d q sp dp Is Idd Iq Isp Idp) in Rl.
      assert (Ex : x = mkIpsMatch (end_text s) (end_text d) (port_shown sp) (port_shown dp) q) by congruence. subst x. unfold match_says in Sx. cbn [im_src im_dst im_sport im_dport im_proto] in Sx. destruct Sx as (A1 & A2 & A3 & A4 & A5).
      split; [exists s; auto|]. split; [exists d; auto|]. split; [exists q; auto|]. split; [exists sp; auto|]. split; [exists dp; auto|]. split; [intros ? []|left; reflexivity].
    + intros ((s & Is & A1) & (d & Idd & A2) & (q & Iq & A5) & (sp & Isp & A3) & (dp & Idp & A4) & _).
      exists (mkIpsMatch (end_text s) (end_text d) (port_shown sp) (port_shown dp) q). split.
      * apply Sm. exists (ips_filter m s d q sp dp). split; [apply Il; exists s, d, q, sp, dp; auto 8|apply Rd; assumption].
      * unfold match_says. cbn [im_src im_dst im_sport im_dport im_proto]. auto.
  - assert (Pre : map ips_line (ips_pre m action) = map Some (ips_pre_cmds m action)).
    { unfold ips_pre, ips_pre_cmds. cbn [map]. rewrite (list_line m Wm), (action_line m action Wm Iac). reflexivity. }
    rewrite !map_app, Pre, Em. reflexivity.
Qed.
