(** Theorems C91: policies read without expansion, and the search for terms (policyreader.py). *)
From Coq Require Import Relations Lia.
From Verif Require Import BaseFacts PyStrFacts LoadProofs IpParentProofs ParentProofs ReaderProofs ReaderSearch PropsNaming SpecReader.
Local Open Scope string_scope.
Local Open Scope list_scope.

(** ** C91: what is read is what the file says, and searches report the terms asked for *)

(** Reading a file laid out with one field on a line gives its filters, in order, each with its
    terms, and each term with the values of its fields.  Missing for the full claim: other
    layouts, headers without a filter name, and headers that name the filter of the one before
    (refuted below). *)
Theorem C91_reads_file_partial : forall lines doc, file_says lines doc -> apart "" doc ->
  exists fs, read_policy lines = Ok fs /\ Forall2 filter_read doc fs.
Proof. exact reader_reads. Qed.
Print Assumptions C91_reads_file_partial.

(** A search over all filters reports the terms that name a definition which contains what was
    asked for, and no others.  Missing for the full claim: addresses and ports that no definition
    contains, searches by the name of a network, and references on lines with comments. *)
Theorem C91_search_exact_partial : forall svc net st fuel parse_ip fs src dst dport sport l, load svc net = Ok st ->
  reader_matches fuel parse_ip (n_services st) (n_networks st) fs src dst dport sport "" = Ok l ->
  bare_references (n_services st) -> known_service (n_services st) dport -> known_service (n_services st) sport ->
  known_address parse_ip (n_networks st) dst -> known_address parse_ip (n_networks st) src ->
  forall i j, In (i, j) l <-> exists f t, nth_error fs i = Some f /\ nth_error (rf_terms f) j = Some t /\
    term_asked parse_ip (n_services st) (n_networks st) src dst dport sport t.
Proof.
  intros svc net st fuel parse_ip fs src dst dport sport l L E B K1 K2 K3 K4. destruct (load_wf _ _ _ L) as [W1 W2].
  destruct (search_parts _ _ _ _ _ _ _ _ _ _ _ E W1 W2 B K1 K2 K3 K4) as (fl & P & X). destruct (pick_spec _ _ _ P) as [[_ ->]|[N _]]; [exact X|congruence].
Qed.
Print Assumptions C91_search_exact_partial.

(** A search in a named filter reports, under position 0, the terms of the last filter of that name. *)
Theorem C91_search_in_filter_partial : forall svc net st fuel parse_ip fs src dst dport sport name l, load svc net = Ok st -> name <> "" ->
  reader_matches fuel parse_ip (n_services st) (n_networks st) fs src dst dport sport name = Ok l ->
  bare_references (n_services st) -> known_service (n_services st) dport -> known_service (n_services st) sport ->
  known_address parse_ip (n_networks st) dst -> known_address parse_ip (n_networks st) src ->
  exists a f b, fs = a ++ f :: b /\ rf_name f = name /\ (forall g, In g b -> rf_name g <> name) /\
    forall i j, In (i, j) l <-> i = O /\ exists t, nth_error (rf_terms f) j = Some t /\
      term_asked parse_ip (n_services st) (n_networks st) src dst dport sport t.
Proof.
  intros svc net st fuel parse_ip fs src dst dport sport name l L N E B K1 K2 K3 K4. destruct (load_wf _ _ _ L) as [W1 W2].
  destruct (search_parts _ _ _ _ _ _ _ _ _ _ _ E W1 W2 B K1 K2 K3 K4) as (fl & P & X). destruct (pick_spec _ _ _ P) as [[Z _]|(_ & a & f & b & F1 & F2 & F3 & ->)]; [congruence|].
  exists a, f, b. split; [exact F1|]. split; [exact F2|]. split; [exact F3|]. intros i j. rewrite X. split.
  - intros (f' & t & I & J & A). destruct i as [|[|i]]; [|discriminate I|discriminate I]. injection I as <-. split; [reflexivity|]. exists t. auto.
  - intros (-> & t & J & A). exists f, t. split; [reflexivity|]. auto.
Qed.
Print Assumptions C91_search_in_filter_partial.

(** A filter that the policy does not have is an error, and only that. *)
Theorem C91_unknown_filter : forall fuel parse_ip services networks fs name, name <> "" ->
  reader_matches fuel parse_ip services networks fs "" "" "" "" name = Raise (Exn "InvalidFilterError") <-> forall f, In f fs -> rf_name f <> name.
Proof.
  intros fuel parse_ip services networks fs name N. rewrite <- (pick_none fs name N). unfold reader_matches. cbn [port_tokens address_tokens is_empty bind].
  destruct (pick_filters fs name) as [fl|e]; cbn [bind]; [split; discriminate|split; intros X; injection X as ->; reflexivity].
Qed.
Print Assumptions C91_unknown_filter.

(** *** A file and definitions *)
Definition nl (s : string) : string := append s (String (ascii_of_nat 10) "").
Definition qt (s : string) : string := append (String (ascii_of_nat 34) s) (String (ascii_of_nat 34) "").
Definition rfile : list string := Eval vm_compute in map nl
  ["header {"; append "  comment:: " (String (ascii_of_nat 34) "edge, term x"); "    } is only text here"; append "    and here" (String (ascii_of_nat 34) ""); "  target:: juniper edge-in inet"; "  target:: cisco edge-in"; "}"; "";
   "# web servers"; "term web {"; append "  comment:: " (qt "to the servers"); "  destination-address:: WEB"; "  destination-port:: HTTP"; "                     "; "  destination-port:: DNS"; "  protocol:: tcp"; "  action:: accept"; "}";
   "term rest {"; "  source-address:: OFFICE"; "  logging:: true"; "  action:: deny"; "}";
   "header {"; "  target:: juniper edge-out"; "}"; "term out {"; "  destination-address:: WEB OFFICE"; "  action:: accept"; "}"].
Definition rdoc : list (list string * list (string * fields)) :=
  [(["edge-in"; "edge-in"], [("web", [("destination-address::", ["WEB"]); ("destination-port::", ["HTTP"]); ("destination-port::", ["DNS"]); ("protocol::", ["tcp"]); ("action::", ["accept"])]);
                  ("rest", [("source-address::", ["OFFICE"]); ("action::", ["deny"])])]);
   (["edge-out"], [("out", [("destination-address::", ["WEB"; "OFFICE"]); ("action::", ["accept"])])])].
Lemma q1 l rest (P : list string -> Prop) : quiet [l] -> P ([l] ++ rest) -> P (l :: rest).
Proof. auto. Qed.
Ltac words := apply says_split; vm_compute; reflexivity.
Ltac no_brace := intros X; apply str_in_spec in X; vm_compute in X; discriminate X.
Ltac qline := eapply qu_line; [apply says_split; [reflexivity|vm_compute; reflexivity]|apply other_split; vm_compute; reflexivity|].
Ltac qlines := repeat first [apply qu_nil|qline].
Ltac ends := eexists; apply says_split; [vm_compute; reflexivity|vm_compute; reflexivity].
Ltac body := repeat first
  [ apply tb_end; ends
  | eapply tb_field; [apply str_in_spec; vm_compute; reflexivity|apply says_split; [vm_compute; reflexivity|vm_compute; reflexivity]|no_brace|]
  | match goal with |- term_body (?l :: ?r) ?f => apply (tb_quiet [l] r f); [qlines|] end ].
Lemma rfile_says : file_says rfile rdoc.
Proof.
  unfold rdoc. apply (fl_filter [] (firstn 7 rfile) (firstn 16 (skipn 7 rfile)) (skipn 23 rfile)); [apply qu_nil| | |].
  - eexists. eexists. eexists. split; [reflexivity|]. split; [apply says_split; [vm_compute; reflexivity|vm_compute; reflexivity]|]. split; [no_brace|].
    apply (hb_quiet (firstn 3 (skipn 1 rfile))).
    + eapply (qu_text _ [_] _ _ []); [apply Nat.odd_spec; vm_compute; reflexivity|apply Forall_cons; [apply Nat.even_spec; vm_compute; reflexivity|apply Forall_nil]|apply Nat.odd_spec; vm_compute; reflexivity|apply split_spelled|apply other_split; vm_compute; reflexivity|apply qu_nil].
    + eapply hb_target; [words|no_brace|]. eapply hb_target; [words|no_brace|]. apply hb_end. ends.
  - apply (tbs_term (firstn 2 (skipn 7 rfile)) (nth 9 rfile "") "web" ["{"] (firstn 8 (skipn 10 rfile)) _ (firstn 5 (skipn 18 rfile))).
    + cbn. qlines.
    + words.
    + no_brace.
    + cbn. body.
    + apply (tbs_term [] (nth 18 rfile "") "rest" ["{"] (firstn 4 (skipn 19 rfile)) _ []); [apply qu_nil|words|no_brace|cbn; body|apply tbs_end, qu_nil].
  - apply (fl_filter [] (firstn 3 (skipn 23 rfile)) (skipn 26 rfile) []); [apply qu_nil| | |apply fl_end, qu_nil].
    + eexists. eexists. eexists. split; [reflexivity|]. split; [apply says_split; [vm_compute; reflexivity|vm_compute; reflexivity]|]. split; [no_brace|].
      eapply hb_target; [words|no_brace|]. apply hb_end. ends.
    + apply (tbs_term [] (nth 26 rfile "") "out" ["{"] (firstn 3 (skipn 27 rfile)) _ []); [apply qu_nil|words|no_brace|cbn; body|apply tbs_end, qu_nil].
Qed.
Definition rsvc : list string := ["HTTP = 80/tcp"; "DNS = 53/udp"; "NAMES = DNS"].
Definition rnet : list string := ["WEB = 10"; "OFFICE = 20 WEB"; "ANY = 10 20 30"; "RESERVED = 10"].
Definition rst : nstate := Eval vm_compute in match load rsvc rnet with Ok st => st | Raise _ => n_init end.
Definition rfs : list rfilter := Eval vm_compute in match read_policy rfile with Ok fs => fs | Raise _ => [] end.
Lemma rst_loaded : load rsvc rnet = Ok rst.
Proof. vm_compute. reflexivity. Qed.
Lemma rst_bare : bare_references (n_services rst).
Proof.
  intros T v c (items & i & I & J & S) _. exists items. split; [exact I|]. destruct S as [v Hv|v c Hv]; [exact J|exfalso].
  assert (Hh : has_char "#" (append v (append " # " c)) = true) by (rewrite !has_char_app; cbn; rewrite orb_true_r; reflexivity).
  cbn in I. destruct I as [I|[I|[I|[]]]]; injection I as <- <-; cbn [In] in J; repeat (destruct J as [J|J]; [rewrite <- J in Hh; discriminate|]); destruct J.
Qed.
Lemma rst_port : known_service (n_services rst) "80/tcp".
Proof.
  right. exists "HTTP". apply (get_parents_sound _ (proj1 (load_wf _ _ _ rst_loaded)) 5 "80/tcp" ["HTTP"]); [vm_compute; reflexivity|left; reflexivity].
Qed.
Lemma rst_address : known_address demo_ip (n_networks rst) "10".
Proof.
  right. split; [exists "1"%char, "0"; auto|]. intros n En. assert (n = mkNet V4 10 32 "" "" "") by (vm_compute in En; congruence). subst n. clear En.
  assert (E : ip_parents 5 demo_ip (n_networks rst) (mkNet V4 10 32 "" "" "") = Ok ["ANY"; "OFFICE"; "RESERVED"; "WEB"]) by (vm_compute; reflexivity).
  pose proof (proj2 (ip_parents_exact _ (proj2 (load_wf _ _ _ rst_loaded)) _ _ _ _ E)) as X. split; [exists "WEB"|intros _].
  - split; [apply X; cbn; auto|]. split; discriminate.
  - apply X. cbn. auto.
Qed.
(** The file is read as written, and the searches find the first term by destination and port, and
    the first and the third by destination alone. *)
Example C91_example : file_says rfile rdoc /\ apart "" rdoc /\ read_policy rfile = Ok rfs /\ map rf_name rfs = ["edge-in"; "edge-out"] /\
  load rsvc rnet = Ok rst /\ bare_references (n_services rst) /\ known_service (n_services rst) "80/tcp" /\ known_address demo_ip (n_networks rst) "10" /\
  reader_matches 5 demo_ip (n_services rst) (n_networks rst) rfs "" "10" "80/tcp" "" "" = Ok [(0, 0)]%nat /\
  reader_matches 5 demo_ip (n_services rst) (n_networks rst) rfs "" "10" "" "" "" = Ok [(0, 0); (1, 0)]%nat /\
  reader_matches 5 demo_ip (n_services rst) (n_networks rst) rfs "10" "" "" "" "edge-in" = Ok [(0, 1)]%nat.
Proof.
  split; [exact rfile_says|]. split.
  { split; [exists "edge-in"; split; [left; reflexivity|discriminate]|]. split; [exists "edge-out"; split; [left; reflexivity|discriminate]|exact Logic.I]. }
  split; [vm_compute; reflexivity|]. split; [reflexivity|]. split; [exact rst_loaded|]. split; [exact rst_bare|]. split; [exact rst_port|]. split; [exact rst_address|].
  split; [vm_compute; reflexivity|]. split; vm_compute; reflexivity.
Qed.

(** *** Where the claim fails *)

(** Positions reported for a named filter are not positions in the policy. *)
Theorem C91_filter_position_refuted : exists i j f, reader_matches 5 demo_ip (n_services rst) (n_networks rst) rfs "" "10" "" "" "edge-out" = Ok [(i, j)] /\
  nth_error rfs i = Some f /\ rf_name f <> "edge-out".
Proof. exists O, O. eexists. split; [vm_compute; reflexivity|]. split; [reflexivity|discriminate]. Qed.
Print Assumptions C91_filter_position_refuted.

(** A port that no definition contains does not restrict the search: all terms are reported. *)
Theorem C91_unknown_port_finds_all_refuted : exists l, reader_matches 5 demo_ip (n_services rst) (n_networks rst) rfs "" "" "9999/tcp" "" "" = Ok l /\
  (forall T, ~ contains_value (n_services rst) "9999/tcp" T) /\ (forall i j f, nth_error rfs i = Some f -> (j < List.length (rf_terms f))%nat -> In (i, j) l).
Proof.
  eexists. split; [vm_compute; reflexivity|]. split.
  - intros T H. apply (get_parents_complete _ (proj1 (load_wf _ _ _ rst_loaded)) rst_bare 5 "9999/tcp" []) in H; [destruct H|vm_compute; reflexivity].
  - intros i j f I J. destruct i as [|[|i]]; [| |destruct i; discriminate I]; injection I as <-; cbn in J; (destruct j as [|[|j]]; [cbn; auto|cbn; try (cbn in J; lia); auto|lia]).
Qed.
Print Assumptions C91_unknown_port_finds_all_refuted.

(** A term without destination, which is for all of them, is not found by destination. *)
Theorem C91_terms_for_all_missed_refuted : exists l f t, reader_matches 5 demo_ip (n_services rst) (n_networks rst) rfs "" "10" "" "" "" = Ok l /\
  nth_error rfs 0 = Some f /\ nth_error (rf_terms f) 1 = Some t /\ rt_destination t = [] /\ ~ In (0, 1)%nat l.
Proof. eexists. eexists. eexists. split; [vm_compute; reflexivity|]. split; [reflexivity|]. split; [reflexivity|]. split; [reflexivity|]. cbn. intuition discriminate. Qed.
Print Assumptions C91_terms_for_all_missed_refuted.

(** Two headers in a row with the same filter name: both filters have the terms of both. *)
Definition rtwice : list string := ["header {"; "  target:: juniper edge inet"; "}"; "term one {"; "  action:: accept"; "}"; "header {"; "  target:: juniper edge inet6"; "}"; "term two {"; "  action:: deny"; "}"].
Theorem C91_same_name_shared_refuted : exists fs, file_says rtwice [(["edge"], [("one", [("action::", ["accept"])])]); (["edge"], [("two", [("action::", ["deny"])])])] /\
  read_policy rtwice = Ok fs /\ map (fun f => map rt_name (rf_terms f)) fs = [["one"; "two"]; ["one"; "two"]].
Proof.
  eexists. split; [|split; vm_compute; reflexivity].
  apply (fl_filter [] (firstn 3 rtwice) (firstn 3 (skipn 3 rtwice)) (skipn 6 rtwice)); [apply qu_nil| | |].
  - eexists. eexists. eexists. split; [reflexivity|]. split; [apply says_split; [vm_compute; reflexivity|vm_compute; reflexivity]|]. split; [no_brace|]. eapply hb_target; [words|no_brace|]. apply hb_end. ends.
  - apply (tbs_term [] (nth 3 rtwice "") "one" ["{"] (firstn 2 (skipn 4 rtwice)) _ []); [apply qu_nil|words|no_brace|cbn; body|apply tbs_end, qu_nil].
  - apply (fl_filter [] (firstn 3 (skipn 6 rtwice)) (skipn 9 rtwice) []); [apply qu_nil| | |apply fl_end, qu_nil].
    + eexists. eexists. eexists. split; [reflexivity|]. split; [apply says_split; [vm_compute; reflexivity|vm_compute; reflexivity]|]. split; [no_brace|]. eapply hb_target; [words|no_brace|]. apply hb_end. ends.
    + apply (tbs_term [] (nth 9 rtwice "") "two" ["{"] (firstn 2 (skipn 10 rtwice)) _ []); [apply qu_nil|words|no_brace|cbn; body|apply tbs_end, qu_nil].
Qed.
Print Assumptions C91_same_name_shared_refuted.

(** A target line with the platform only, as cloudarmor and k8s have it, is an error. *)
Theorem C91_short_target_refuted : read_policy ["header {"; "  target:: cloudarmor"; "}"; "term one {"; "  action:: accept"; "}"] = Raise (Exn "IndexError").
Proof. vm_compute. reflexivity. Qed.
Print Assumptions C91_short_target_refuted.

(** A field on the line of its term is not read. *)
Theorem C91_one_line_term_refuted : exists fs f t, read_policy ["header {"; "  target:: juniper edge"; "}"; "term one { action:: accept }"] = Ok fs /\
  nth_error fs 0 = Some f /\ nth_error (rf_terms f) 0 = Some t /\ rt_action t = [].
Proof. eexists. eexists. eexists. split; [vm_compute; reflexivity|]. split; [reflexivity|]. split; reflexivity. Qed.
Print Assumptions C91_one_line_term_refuted.

(** The last line of a text in quotes is read as part of the policy: a brace in it ends the header,
    and the filter has no name. *)
Theorem C91_text_read_as_policy_refuted : exists fs,
  read_policy ["header {"; append "  comment:: " (String (ascii_of_nat 34) "not yet"); append "  a } in a text" (String (ascii_of_nat 34) ""); "  target:: juniper edge"; "}"; "term one {"; "  action:: accept"; "}"] = Ok fs /\
  map rf_name fs = [""].
Proof. eexists. split; vm_compute; reflexivity. Qed.
Print Assumptions C91_text_read_as_policy_refuted.
