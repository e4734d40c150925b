(** Property theorems about definitions: C17-C20, C42-C47. *)
From Coq Require Import Relations Sorted Lia.
From Verif Require Import BaseFacts PyStrFacts SpecNaming ModelParents SpecParents NamingProofs ServiceProofs
  PortNameProofs ParentProofs LoadProofs DocProofs IpParentProofs Samples.
Local Open Scope string_scope.

(** A stand-in for the address syntax in examples: decimal numerals are IPv4 hosts. *)
Definition demo_ip (s : string) : option net :=
  match numeral_value (before_char "." s) with
  | Some n => Some (mkNet V4 n 32 "" "" "")
  | None => None
  end.

(** ** C17 *)

(** False as stated: a reference on a line that has a comment is never checked. *)
Theorem C17_undefined_rejected_refuted :
  exists svc net st T v c, load svc net = Ok st /\
    entry_value (n_networks st) T v c /\ looks_like_token v /\ ~ has_definition (n_networks st) v.
Proof.
  eexists [], ["A = MISSING # oops"], _, "A", "MISSING", "oops".
  split; [vm_compute; reflexivity|]. split.
  { exists ["MISSING #  oops"], "MISSING #  oops". split; [left; reflexivity|]. split; [left; reflexivity|].
    apply (is_commented "MISSING" " oops"). split; [discriminate|]. split; [|cbv; intuition congruence].
    intros c Hc. cbv in Hc. intuition (subst; reflexivity). }
  split; [split; [exists "M"%char, "ISSING"; auto|cbv; intuition congruence]|cbv; intuition congruence].
Qed.
Print Assumptions C17_undefined_rejected_refuted.

(** What the check does guarantee: every token-like value on a line without a comment
    is defined. Missing: values on commented lines, and services when a .net file
    begins with a continuation line. *)
Theorem C17_undefined_networks_rejected_partial :
  forall svc net st, load svc net = Ok st ->
    forall T items v, In (T, items) (n_networks st) -> In v items -> ~ occurs "#" v ->
      looks_like_token v -> has_definition (n_networks st) v.
Proof. exact load_networks_defined. Qed.
Print Assumptions C17_undefined_networks_rejected_partial.

Theorem C17_undefined_services_rejected_partial :
  forall svc net st, load svc net = Ok st -> file_starts_with_def net ->
    forall T items v, In (T, items) (n_services st) -> In v items -> ~ occurs "#" v ->
      looks_like_token v -> has_definition (n_services st) v.
Proof. exact load_services_defined. Qed.
Print Assumptions C17_undefined_services_rejected_partial.

Example C17_example :
  (exists st, load ["WEB = HTTP"; "HTTP = 80/tcp"] ["A = B"; "B = 1"] = Ok st) /\
  load [] ["A = B"] = Raise (Exn "UndefinedAddressError") /\
  load ["A = B"] [] = Raise (Exn "UndefinedServiceError") /\
  file_starts_with_def ["# networks"; "A = B"; "B = 1"].
Proof. split; [eexists; vm_compute; reflexivity|]. split; [reflexivity|]. split; [reflexivity|]. cbv; tauto. Qed.

(** ** C18 *)
Theorem C18_get_net_exact :
  forall parse_ip svc net st q T, load svc net = Ok st -> query_token q = Ok T ->
    ~ net_cycle parse_ip (n_networks st) T ->
    forall fuel, (List.length (n_networks st) < fuel)%nat ->
      (exists l, get_net parse_ip fuel (n_networks st) q = Ok l /\
         (forall U, net_reach parse_ip (n_networks st) T U -> has_definition (n_networks st) U) /\
         (forall n, In n l <-> exists m, net_in parse_ip (n_networks st) T m /\ n = set_parent T m)) \/
      (get_net parse_ip fuel (n_networks st) q = Raise (Exn "UndefinedAddressError") /\
       exists U, net_reach parse_ip (n_networks st) T U /\ ~ has_definition (n_networks st) U).
Proof.
  intros parse_ip svc net st q T Hl. exact (get_net_spec parse_ip _ (proj2 (load_wf _ _ _ Hl)) q T).
Qed.
Print Assumptions C18_get_net_exact.

Example C18_example :
  exists st, load [] ["ALL = OFFICE LAB # both"; "OFFICE = 1.x # hq"; "  2.x"; "LAB = OFFICE 3.x"] = Ok st /\
    get_net demo_ip 5 (n_networks st) "ALL" =
      Ok [mkNet V4 1 32 "hq" "OFFICE" "ALL"; mkNet V4 2 32 "" "OFFICE" "ALL"; mkNet V4 1 32 "hq" "OFFICE" "ALL";
          mkNet V4 2 32 "" "OFFICE" "ALL"; mkNet V4 3 32 "" "LAB" "ALL"].
Proof. eexists. split; vm_compute; reflexivity. Qed.

(** ** C19 *)
Theorem C19_get_service_exact :
  forall svc net st q T, load svc net = Ok st -> query_token q = Ok T ->
    ~ service_cycle (n_services st) T ->
    forall fuel, (List.length (n_services st) < fuel)%nat ->
      (exists l, get_service fuel (n_services st) q = Ok l /\
         (forall U, service_reach (n_services st) T U -> has_definition (n_services st) U) /\
         StronglySorted str_before l /\
         (forall s, In s l <-> service_in (n_services st) T s)) \/
      (get_service fuel (n_services st) q = Raise (Exn "UndefinedServiceError") /\
       exists U, service_reach (n_services st) T U /\ ~ has_definition (n_services st) U).
Proof.
  intros svc net st q T Hl. exact (get_service_spec _ (proj1 (load_wf _ _ _ Hl)) q T).
Qed.
Print Assumptions C19_get_service_exact.

Theorem C19_by_proto_exact :
  forall svc net st fuel q T proto, load svc net = Ok st -> query_token q = Ok T ->
    (forall l, get_service_by_proto fuel (n_services st) q proto = Ok l ->
       StronglySorted str_before l /\
       forall p, In p l <-> service_port (n_services st) T proto p) /\
    (forall e, get_service_by_proto fuel (n_services st) q proto = Raise (Exn e) ->
       e = "UndefinedServiceError" /\
       exists U, service_reach (n_services st) T U /\ ~ has_definition (n_services st) U).
Proof.
  intros svc net st fuel q T proto Hl Hq. split.
  - intros l H. exact (service_by_proto_spec _ _ _ _ _ _ (proj1 (load_wf _ _ _ Hl)) Hq H).
  - intros e H. exact (service_by_proto_exn _ _ _ _ _ _ (proj1 (load_wf _ _ _ Hl)) Hq H).
Qed.
Print Assumptions C19_by_proto_exact.

Example C19_example :
  exists st, load ["WEB = HTTP 8080-8090/tcp"; "HTTP = 80/tcp # plain"; "DNS = 53/udp 53/tcp WEB"] [] = Ok st /\
    get_service 5 (n_services st) "DNS" = Ok ["53/tcp"; "53/udp"; "80/tcp"; "8080-8090/tcp"] /\
    get_service_by_proto 5 (n_services st) "DNS" "UDP" = Ok ["53"].
Proof. eexists. split; [vm_compute; reflexivity|]. split; vm_compute; reflexivity. Qed.

(** ** C20 *)

(** False: definitions that refer to each other load, and looking them up never ends. *)
Theorem C20_lookup_terminates_refuted :
  (exists net st, load [] net = Ok st /\
     forall parse_ip fuel, get_net parse_ip fuel (n_networks st) "A" = Raise OutOfFuel) /\
  (exists svc st, load svc [] = Ok st /\
     forall fuel, get_service fuel (n_services st) "A" = Raise OutOfFuel).
Proof.
  split.
  - eexists ["A = B"; "B = A"], _. split; [vm_compute; reflexivity|]. intros parse_ip fuel.
    cut (get_net parse_ip fuel [("A", ["B"]); ("B", ["A"])] "A" = Raise OutOfFuel /\
         get_net parse_ip fuel [("A", ["B"]); ("B", ["A"])] "B" = Raise OutOfFuel); [intros [H _]; exact H|].
    induction fuel as [|fuel [IH1 IH2]]; [split; reflexivity|].
    assert (E : forall r T, r = Raise OutOfFuel ->
      (let! parts := mapM (fun x => x) [r] in Ok (map (set_parent T) (concat parts))) = Raise OutOfFuel)
      by (intros r T ->; reflexivity).
    split; [exact (E _ "A" IH2)|exact (E _ "B" IH1)].
  - eexists ["A = B"; "B = A"], _. split; [vm_compute; reflexivity|]. intros fuel.
    cut (get_service fuel [("A", ["B"]); ("B", ["A"])] "A" = Raise OutOfFuel /\
         get_service fuel [("A", ["B"]); ("B", ["A"])] "B" = Raise OutOfFuel); [intros [H _]; exact H|].
    induction fuel as [|fuel [IH1 IH2]]; [split; reflexivity|].
    assert (E : forall r : res (list string), r = Raise OutOfFuel ->
      (let! all := (let! sub := r in Ok ([] ++ sub)%list) in Ok (sorted_set all)) = Raise OutOfFuel)
      by (intros r ->; reflexivity).
    split; [exact (E _ IH2)|exact (E _ IH1)].
Qed.
Print Assumptions C20_lookup_terminates_refuted.

(** Exactly when they terminate: a cycle is the only obstacle. *)
Theorem C20_get_net_terminates_partial :
  forall parse_ip svc net st q T, load svc net = Ok st -> query_token q = Ok T ->
    (forall U, net_reach parse_ip (n_networks st) T U -> has_definition (n_networks st) U) ->
    ((exists fuel l, get_net parse_ip fuel (n_networks st) q = Ok l) <->
     ~ net_cycle parse_ip (n_networks st) T) /\
    (net_cycle parse_ip (n_networks st) T ->
       forall fuel, get_net parse_ip fuel (n_networks st) q = Raise OutOfFuel).
Proof.
  intros parse_ip svc net st q T Hl Hq Hd. split.
  - exact (get_net_terminates_iff parse_ip _ (proj2 (load_wf _ _ _ Hl)) q T Hq Hd).
  - exact (get_net_diverges parse_ip _ (proj2 (load_wf _ _ _ Hl)) q T Hq Hd).
Qed.
Print Assumptions C20_get_net_terminates_partial.

Theorem C20_get_service_terminates_partial :
  forall svc net st q T, load svc net = Ok st -> query_token q = Ok T ->
    (forall U, service_reach (n_services st) T U -> has_definition (n_services st) U) ->
    ((exists fuel l, get_service fuel (n_services st) q = Ok l) <->
     ~ service_cycle (n_services st) T) /\
    (service_cycle (n_services st) T ->
       forall fuel, get_service fuel (n_services st) q = Raise OutOfFuel).
Proof.
  intros svc net st q T Hl Hq Hd. split.
  - exact (get_service_terminates_iff _ (proj1 (load_wf _ _ _ Hl)) q T Hq Hd).
  - exact (get_service_diverges _ (proj1 (load_wf _ _ _ Hl)) q T Hq Hd).
Qed.
Print Assumptions C20_get_service_terminates_partial.

Theorem C20_parents_terminate_partial :
  forall svc net st q fuel, load svc net = Ok st ->
    (forall T, contains_value (n_services st) q T -> ~ contains_value (n_services st) T T) ->
    (List.length (n_services st) < fuel)%nat ->
    exists l, get_parents fuel (n_services st) q = Ok l.
Proof.
  intros svc net st q fuel Hl. exact (get_parents_terminates _ (proj1 (load_wf _ _ _ Hl)) q fuel).
Qed.
Print Assumptions C20_parents_terminate_partial.

(** ** C42 *)
(** GetServiceParents / GetNetParents: everything listed does contain the query. *)
Theorem C42_parents_sound :
  forall svc net st t fuel q l T, load svc net = Ok st ->
    t = n_services st \/ t = n_networks st ->
    get_parents fuel t q = Ok l -> In T l -> contains_value t q T.
Proof.
  intros svc net st t fuel q l T Hl Ht. apply get_parents_sound.
  destruct Ht as [->| ->]; apply (load_wf _ _ _ Hl).
Qed.
Print Assumptions C42_parents_sound.

(** False: a containing token can be missing. *)
Theorem C42_parents_complete_refuted :
  exists svc net st l T, load svc net = Ok st /\
    get_parents 10 (n_networks st) "X" = Ok l /\ contains_value (n_networks st) "X" T /\ ~ In T l.
Proof.
  eexists [], ["X = 1.x"; "A = X"; "B = A # through a comment"], _, _, "B".
  split; [vm_compute; reflexivity|]. split; [vm_compute; reflexivity|]. split.
  - assert (W : forall c, word (String c "") <-> (is_ws c = false /\ c <> "#"%char)).
    { intros c. unfold word. split.
      - intros [_ [H1 H2]]. split; [apply H1; left; reflexivity|]. intros ->. apply H2. left; reflexivity.
      - intros [H1 H2]. split; [discriminate|]. split; [intros d [<-|[]]; exact H1|]. intros [H|[]]. auto. }
    apply t_trans with "A"; apply t_step.
    + exists "". exists ["X"], "X". split; [right; left; reflexivity|]. split; [left; reflexivity|]. constructor. apply W. split; [reflexivity|discriminate].
    + eexists. eexists _, _. split; [right; right; left; reflexivity|]. split; [left; reflexivity|].
      apply (is_commented "A"). apply W. split; [reflexivity|discriminate].
  - cbv. intuition congruence.
Qed.
Print Assumptions C42_parents_complete_refuted.

(** Complete when references between definitions are on lines without a comment. *)
Theorem C42_parents_complete_partial :
  forall svc net st t fuel q l, load svc net = Ok st ->
    t = n_services st \/ t = n_networks st ->
    (forall T v c, entry_value t T v c -> has_definition t v ->
       exists items, In (T, items) t /\ In v items) ->
    get_parents fuel t q = Ok l -> forall T, contains_value t q T -> In T l.
Proof.
  intros svc net st t fuel q l Hl Ht Hb. apply get_parents_complete; [|exact Hb].
  destruct Ht as [->| ->]; apply (load_wf _ _ _ Hl).
Qed.
Print Assumptions C42_parents_complete_partial.

Example C42_example :
  exists st, load [] ["X = 1.x"; "A = X"; "B = A X"; "C = 2.x"] = Ok st /\
    get_parents 5 (n_networks st) "X" = Ok ["A"; "B"] /\
    (forall T v c, entry_value (n_networks st) T v c -> has_definition (n_networks st) v ->
       exists items, In (T, items) (n_networks st) /\ In v items).
Proof.
  eexists. split; [vm_compute; reflexivity|]. split; [vm_compute; reflexivity|].
  intros T v c [items [i [H1 [H2 H3]]]] _. exists items. split; [exact H1|].
  simpl in H1. destruct H3 as [v Hv|v c Hv]; [exact H2|exfalso].
  assert (Hh : has_char "#" (v ++ " # " ++ c) = true) by (rewrite !has_char_app; simpl; rewrite orb_true_r; reflexivity).
  destruct H1 as [H1|[H1|[H1|[H1|[]]]]]; injection H1 as <- <-; cbn [In] in H2;
    repeat (destruct H2 as [H2|H2]; [rewrite <- H2 in Hh; discriminate|]); destruct H2.
Qed.

(** ** C43 *)
Theorem C43_translate_ports_exact :
  forall svc net st fuel ports protocols l, load svc net = Ok st ->
    translate_ports fuel (n_services st) ports protocols = Ok l ->
    forall lo hi, In (lo, hi) l <->
      exists port T proto p, In port ports /\ query_token port = Ok T /\ In proto protocols /\
        service_port (n_services st) T proto p /\ range_text p lo hi.
Proof.
  intros svc net st fuel ports protocols l Hl.
  exact (translate_ports_spec _ fuel ports protocols l (proj1 (load_wf _ _ _ Hl))).
Qed.
Print Assumptions C43_translate_ports_exact.

Theorem C43_translate_ports_fails :
  forall svc net st fuel ports protocols e, load svc net = Ok st ->
    (forall port, In port ports -> exists T, query_token port = Ok T /\ ~ service_cycle (n_services st) T) ->
    (List.length (n_services st) < fuel)%nat ->
    translate_ports fuel (n_services st) ports protocols = Raise e ->
    exists port T, In port ports /\ query_token port = Ok T /\
      (e = Exn "UndefinedServiceError" /\
         (exists U, service_reach (n_services st) T U /\ ~ has_definition (n_services st) U) \/
       e = Exn "ValueError" /\
         (exists proto p, In proto protocols /\ service_port (n_services st) T proto p /\
            forall lo hi, ~ range_text p lo hi)).
Proof.
  intros svc net st fuel ports protocols e Hl.
  exact (translate_ports_fails _ fuel ports protocols e (proj1 (load_wf _ _ _ Hl))).
Qed.
Print Assumptions C43_translate_ports_fails.

Example C43_example :
  exists st, load ["WEB = HTTP 8080-8090/tcp"; "HTTP = 80/tcp"; "DNS = 53/udp 53/tcp"] [] = Ok st /\
    translate_ports 5 (n_services st) ["WEB"; "DNS"] ["tcp"] = Ok [(80, 80); (8080, 8090); (53, 53)]%Z.
Proof. eexists. split; vm_compute; reflexivity. Qed.

(** ** C44 *)
Theorem C44_documents_load_to_their_meaning :
  forall svc net, good_doc true svc -> good_doc false net ->
    exists st, load (map line_text svc) (map line_text net) = Ok st /\
      n_services st = meaning [] svc /\ n_networks st = meaning [] net.
Proof. exact load_doc. Qed.
Print Assumptions C44_documents_load_to_their_meaning.

Example C44_example :
  map line_text [Nothing "# networks"; Def "RFC" ["10/8"] (Some " private"); More ["172/12"; "WEB"] None; Def "WEB" ["1.1"] None]
    = ["# networks"; "RFC = 10/8 # private"; "172/12 WEB"; "WEB = 1.1"] /\
  good_doc false [Nothing "# networks"; Def "RFC" ["10/8"] (Some " private"); More ["172/12"; "WEB"] None; Def "WEB" ["1.1"] None] /\
  meaning [] [Nothing "# networks"; Def "RFC" ["10/8"] (Some " private"); More ["172/12"; "WEB"] None; Def "WEB" ["1.1"] None]
    = [("RFC", ["10/8 #  private"; "172/12"; "WEB"]); ("WEB", ["1.1"])].
Proof.
  assert (G : forall s, s <> "" -> forallb (fun c => negb (is_ws c) && negb (Ascii.eqb c "#") && negb (Ascii.eqb c "=")) (list_ascii_of_string s) = true -> good_value s).
  { intros s H0 H. rewrite forallb_forall in H. split.
    - split; [exact H0|]. split; [intros c Hc; specialize (H c Hc); destruct (is_ws c); [discriminate|reflexivity]|].
      intros Hc. specialize (H _ Hc). discriminate.
    - intros Hc. specialize (H _ Hc). discriminate. }
  split; [reflexivity|]. split; [|reflexivity]. split; [|split; [|split]].
  - constructor; [right; exists " networks"; reflexivity|].
    repeat constructor; try discriminate; try (apply G; [discriminate|reflexivity]).
  - repeat constructor; simpl; intuition congruence.
  - exact I.
  - intros l v Hl Hv [[c [r [Hc Ha]]] _]. simpl in Hl.
    destruct Hl as [<-|[<-|[<-|[<-|[]]]]]; simpl in Hv;
      repeat (destruct Hv as [<-|Hv]; [injection Hc as <- <-; try discriminate; simpl; auto|]); destruct Hv.
Qed.

(** ** C45 *)
(** A service defined for one protocol only is applied to every protocol of the term:
    the translation does not keep the pairing. *)
Theorem C45_port_protocol_pairing_refuted :
  exists svc st l, load svc [] = Ok st /\
    translate_ports 5 (n_services st) ["DNS"] ["tcp"; "udp"] = Ok l /\
    In (53, 53)%Z l /\ (forall p, ~ service_port (n_services st) "DNS" "tcp" p).
Proof.
  eexists ["DNS = 53/udp"], _, _. split; [vm_compute; reflexivity|]. split; [vm_compute; reflexivity|].
  split; [left; reflexivity|]. intros p Hp.
  assert (WF : well_formed [("DNS", ["53/udp"])]).
  { destruct (load_wf ["DNS = 53/udp"] [] (mkN [("DNS", ["53/udp"])] [] [] [] "DNS" (Some (Services, "DNS")))) as [W _]; [vm_compute; reflexivity|exact W]. }
  destruct (service_by_proto_spec _ 5 "DNS" "DNS" "tcp" [] WF eq_refl) as [_ H]; [vm_compute; reflexivity|].
  apply H in Hp. exact Hp.
Qed.
Print Assumptions C45_port_protocol_pairing_refuted.

(** ** C46 *)
(** GetIpParents: false as an exact containment query, since items that do not start
    with a digit (such as fe80::/10) are skipped. *)
Theorem C46_ip_parents_complete_refuted :
  forall n, supernet_of n n = true ->
    exists net st v, load [] net = Ok st /\
      forall parse_ip, parse_ip v = Some n ->
        entry_value (n_networks st) "LINK_LOCAL" v "" /\
        ip_parents 5 parse_ip (n_networks st) n = Ok [].
Proof.
  intros n _. eexists ["LINK_LOCAL = fe80::/10"], _, "fe80::/10". split; [vm_compute; reflexivity|].
  intros parse_ip Hp. split.
  - eexists _, _. split; [left; reflexivity|]. split; [left; reflexivity|]. constructor.
    split; [discriminate|]. split; [intros c Hc; cbv in Hc; intuition (subst; reflexivity)|cbv; intuition congruence].
  - reflexivity.
Qed.
Print Assumptions C46_ip_parents_complete_refuted.

Theorem C46_ip_parents_partial :
  forall svc net st fuel parse_ip q l, load svc net = Ok st ->
    ip_parents fuel parse_ip (n_networks st) q = Ok l ->
    StronglySorted str_before l /\
    forall T, In T l <-> exists B, lists_address parse_ip (n_networks st) B q /\ alpha_name B /\
      (T = B \/ clos_trans _ (named_ref (n_networks st)) B T).
Proof.
  intros svc net st fuel parse_ip q l Hl. exact (ip_parents_exact _ (proj2 (load_wf _ _ _ Hl)) fuel parse_ip q l).
Qed.
Print Assumptions C46_ip_parents_partial.

Theorem C46_ip_parents_terminate_partial :
  forall svc net st parse_ip q fuel, load svc net = Ok st ->
    (forall T, ~ clos_trans _ (named_ref (n_networks st)) T T) ->
    (List.length (n_networks st) < fuel)%nat ->
    exists l, ip_parents fuel parse_ip (n_networks st) q = Ok l.
Proof.
  intros svc net st parse_ip q fuel Hl. exact (ip_parents_terminates _ (proj2 (load_wf _ _ _ Hl)) parse_ip q fuel).
Qed.
Print Assumptions C46_ip_parents_terminate_partial.

Example C46_example :
  exists st, load [] ["X = 1.x # one"; "A = X # commented"; "B = A"; "C = 2.x"] = Ok st /\
    ip_parents 5 demo_ip (n_networks st) (mkNet V4 1 32 "" "" "") = Ok ["A"; "B"; "X"].
Proof. eexists. split; vm_compute; reflexivity. Qed.

(** ** C47 *)
Theorem C47_port_parents_exact :
  forall svc net st fuel query proto n l, load svc net = Ok st ->
    (forall T, has_definition (n_services st) T -> word T) ->
    numeral_value query = Some n -> word proto -> ~ occurs "/" proto ->
    get_port_parents fuel (n_services st) query proto = Ok l ->
    l <> [] /\ StronglySorted str_before l /\
    forall T, In T l <-> exists s, service_in (n_services st) T s /\ covers_port s n proto.
Proof.
  intros svc net st fuel query proto n l Hl HW.
  exact (port_parents_exact _ (proj1 (load_wf _ _ _ Hl)) fuel query proto n l HW).
Qed.
Print Assumptions C47_port_parents_exact.

Example C47_example :
  exists st, load ["HIGH = 1024-65535/tcp"; "ALT = 8080/tcp"; "WEB = ALT 80/tcp"; "DNS = 53/udp"] [] = Ok st /\
    get_port_parents 5 (n_services st) "8080" "tcp" = Ok ["ALT"; "HIGH"; "WEB"] /\
    get_port_parents 5 (n_services st) "53" "tcp" = Raise (Exn "UndefinedPortError").
Proof. eexists. split; [vm_compute; reflexivity|]. split; vm_compute; reflexivity. Qed.
