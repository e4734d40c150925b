(** Theorems C76: from the text of a policy to what the configuration decides. *)
From Coq Require Import Lia.
From Verif Require Import SpecWhole Samples BaseFacts CiscoProofs WholeProofs PropsParse.
From Verif Require PropsNft PropsIptables PropsPcap.
Local Open Scope string_scope.
Local Open Scope list_scope.
Local Open Scope Z_scope.

(** ** C76 *)

(** From the text to nftables: each filter of the text aimed at nftables becomes a chain that
    decides every packet as the first of its terms, in the order and the words of the text,
    that has not expired and describes the packet; replies pass first. Missing for the full
    claim: what C35 leaves out, and names that stand for no network (C68). *)
Theorem C76_text_to_nftables_partial :
  forall lookup svc net st fuel optimize ts text fs pol gs lines ty tm td today, load svc net = Ok st ->
    (forall n nets, lookup n = Ok nets -> valid_list nets) -> date_ordinal ty tm td = Ok today ->
    laid_out ts text -> policy_tokens ts fs -> text_names_nonempty lookup fs ->
    parse_text lookup fuel (n_services st) optimize false text = Ok pol -> nft_of today pol = Ok lines ->
    for_platform "nftables" pol = Ok gs -> nft_policy_ok today (map nft_filter_of gs) ->
    exists cs, read_nft (join nl lines) = Some cs /\
      forall n options terms i p o, nth_error (aimed "nftables" fs) n = Some (options, terms) ->
        process_header options = Ok i -> nft_traffic (header_families i) p ->
        (nft_decides cs (header_table i, header_chain i n) p o <->
         (p_option p "established" /\ o = "accept") \/
         (~ p_option p "established" /\ first_says (text_says lookup (n_services st) (ty, tm, td) nft_action p) terms o)).
Proof.
  intros lookup svc net st fuel optimize ts text fs pol gs lines ty tm td today L V T Lo Pt N P H G OK.
  exact (nft_text lookup (n_services st) fs pol ty tm td today T (C68_parsed_text_means_what_it_says _ _ _ _ _ _ _ _ _ _ L V Lo Pt P) N gs lines G H OK).
Qed.
Print Assumptions C76_text_to_nftables_partial.

(** From the text to iptables and speedway, for filters with connection tracking. Missing for
    the full claim: what C31 leaves out, filters with the option nostate, and names that stand
    for no network. *)
Theorem C76_text_to_iptables_partial :
  forall (speedway : bool) lookup svc net st fuel optimize ts text fs pol gs hs v lines ty tm td today, load svc net = Ok st ->
    let platform := if speedway then "speedway" else "iptables" in
    (forall n nets, lookup n = Ok nets -> valid_list nets) -> date_ordinal ty tm td = Ok today ->
    laid_out ts text -> policy_tokens ts fs -> text_names_nonempty lookup fs ->
    parse_text lookup fuel (n_services st) optimize false text = Ok pol -> ipt_of speedway today pol = Ok lines ->
    for_platform platform pol = Ok gs -> mapM ipt_filter_of gs = Ok hs -> ipt_policy_ok speedway today v hs ->
    exists cmds, read_table v (join nl_text lines) = Some cmds /\
      (loads builtin_chains cmds -> forall (before : list (list string * list term_text)) (name : string) (options : list string) (terms : list term_text) after p,
         aimed platform fs = before ++ (name :: options, terms) :: after ->
         (forall f, In f (before ++ [(name :: options, terms)]) -> ~ In "nostate" (tl (fst f))) ->
         ipt_traffic (mkIpt speedway name (if str_in "inet6" options then V6 else V4) true true) p ->
         forall o, table_decides cmds name p o <->
           first_says (text_says lookup (n_services st) (ty, tm, td) ipt_action p) terms o).
Proof.
  intros speedway lookup svc net st fuel optimize ts text fs pol gs hs v lines ty tm td today L platform V T Lo Pt N P H G M OK.
  exact (ipt_text lookup (n_services st) fs pol ty tm td today T (C68_parsed_text_means_what_it_says _ _ _ _ _ _ _ _ _ _ L V Lo Pt P) N speedway v gs hs lines G M H OK).
Qed.
Print Assumptions C76_text_to_iptables_partial.

(** From the text to a pcap filter, which selects what the text accepts, or, inverted, what it
    denies. Missing for the full claim: what C36 leaves out, and names that stand for no
    network. *)
Theorem C76_text_to_pcap_partial :
  forall (invert : bool) shape local lookup svc net st fuel optimize ts text fs pol gs expr ty tm td today, load svc net = Ok st ->
    (invert = false /\ shape = pcap_shape today \/ invert = true /\ shape = pcap_inverted_shape today) ->
    (forall n nets, lookup n = Ok nets -> valid_list nets) -> date_ordinal ty tm td = Ok today ->
    laid_out ts text -> policy_tokens ts fs -> text_names_nonempty lookup fs ->
    parse_text lookup fuel (n_services st) optimize false text = Ok pol -> pcap_of invert today pol = Ok expr ->
    for_platform "pcap" pol = Ok gs -> pcap_policy_ok shape today (map pcap_filter_of gs) ->
    exists c, read_pcap local expr = Some c /\
      forall p, (forall f, In f (aimed "pcap" fs) -> pcap_traffic local (header_cfg (tl (fst f))) p) ->
        (c p <-> exists f, In f (aimed "pcap" fs) /\
           first_says (text_says lookup (n_services st) (ty, tm, td) pcap_action p) (snd f) (if invert then "deny" else "accept")).
Proof.
  intros invert shape local lookup svc net st fuel optimize ts text fs pol gs expr ty tm td today L Sh V T Lo Pt N P H G OK.
  exact (pcap_text lookup (n_services st) fs pol ty tm td today T (C68_parsed_text_means_what_it_says _ _ _ _ _ _ _ _ _ _ L V Lo Pt P) N local invert shape gs expr G H Sh OK).
Qed.
Print Assumptions C76_text_to_pcap_partial.

(** One text for three platforms. *)
Definition both_words : list (token * string) :=
  [(Kw "header", "header"); (LBrace, "{"); (Kw "target", "target"); (Colon, ":"); (Colon, ":"); (Str "nftables", "nftables"); (Str "inet", "inet"); (Str "input", "input");
   (Kw "target", "target"); (Colon, ":"); (Colon, ":"); (Str "iptables", "iptables"); (Str "INPUT", "INPUT");
   (Kw "target", "target"); (Colon, ":"); (Colon, ":"); (Str "pcap", "pcap"); (Str "lab", "lab"); (Str "inet", "inet"); (RBrace, "}");
   (Kw "term", "term"); (Str "old", "old"); (LBrace, "{"); (Kw "expiration", "expiration"); (Colon, ":"); (Colon, ":"); (Int "2020", "2020"); (Dash, "-"); (Int "02", "02"); (Dash, "-"); (Int "29", "29");
   (Kw "action", "action"); (Colon, ":"); (Colon, ":"); (Str "accept", "accept"); (RBrace, "}");
   (Kw "term", "term"); (Str "web", "web"); (LBrace, "{"); (Kw "protocol", "protocol"); (Colon, ":"); (Colon, ":"); (Str "tcp", "tcp");
   (Kw "destination-address", "destination-address"); (Colon, ":"); (Colon, ":"); (Str "OFFICE", "OFFICE");
   (Kw "destination-port", "destination-port"); (Colon, ":"); (Colon, ":"); (Str "HTTP", "HTTP");
   (Kw "action", "action"); (Colon, ":"); (Colon, ":"); (Str "accept", "accept"); (RBrace, "}");
   (Kw "term", "term"); (Str "rest", "rest"); (LBrace, "{"); (Kw "action", "action"); (Colon, ":"); (Colon, ":"); (Str "deny", "deny"); (RBrace, "}")].
Definition both_text : string := Eval vm_compute in spaced both_words.
Definition both_filters : list filter_text := Eval vm_compute in
  match parse_tokens (map fst both_words) with Ok l => l | Raise _ => [] end.
Definition both_state : nstate := Eval vm_compute in match load ["HTTP = 80/tcp"] [] with Ok st => st | Raise _ => n_init end.
Definition both_policy : policy := Eval vm_compute in
  match parse_text demo_lookup 5 (n_services both_state) true false both_text with Ok l => l | Raise _ => [] end.
Definition both_terms : list term := Eval vm_compute in map fst (flat_map snd both_policy).
Definition both_old : term := Eval vm_compute in nth 0 both_terms (blank "").
Definition both_web : term := Eval vm_compute in nth 1 both_terms (blank "").
Definition both_rest : term := Eval vm_compute in nth 2 both_terms (blank "").
Definition both_day : Z := Eval vm_compute in match date_ordinal 2024 5 6 with Ok n => n | Raise _ => 0 end.
Lemma both_laid_out : laid_out (map fst both_words) both_text.
Proof.
  change both_text with (spaced both_words). apply spaced_laid_out. unfold both_words. repeat apply Forall_cons; try apply Forall_nil; cbn [fst snd];
    first [sp_word | constructor; reflexivity | constructor].
Qed.
Lemma both_lookup : forall n nets, demo_lookup n = Ok nets -> valid_list nets.
Proof.
  intros n nets. unfold demo_lookup. destruct (String.eqb n "OFFICE").
  - intros H. injection H as <-. constructor; [|constructor]. split; [vm_compute; split; discriminate|]. split; [vm_compute; split; [discriminate|reflexivity]|]. exists 10. reflexivity.
  - destruct (String.eqb n "NOTHING"); [|discriminate]. intros H. injection H as <-. constructor.
Qed.
Lemma both_names : text_names_nonempty demo_lookup both_filters.
Proof.
  unfold text_names_nonempty, both_filters. repeat (apply Forall_cons || apply Forall_nil); cbn [snd]; repeat (apply Forall_cons || apply Forall_nil); cbn [snd];
  intros k name _ H E; unfold demo_lookup in E; (destruct (String.eqb name "OFFICE"); [discriminate E|]);
  (destruct (String.eqb_spec name "NOTHING") as [->|N]; [|discriminate E]);
  unfold words_said, said in H; apply in_flat_map in H; destruct H as (v & Hv & Hn); apply in_map_iff in Hv;
  destruct Hv as ([k' v'] & <- & Hf); apply filter_In in Hf; destruct Hf as [Hf _]; cbn in Hf;
  repeat (destruct Hf as [Hf|Hf]; [injection Hf as <- <-; cbn in Hn; intuition discriminate|]); destruct Hf.
Qed.
Example C76_example_text : load ["HTTP = 80/tcp"] [] = Ok both_state /\ date_ordinal 2024 5 6 = Ok both_day /\
  (forall n nets, demo_lookup n = Ok nets -> valid_list nets) /\
  laid_out (map fst both_words) both_text /\ policy_tokens (map fst both_words) both_filters /\ text_names_nonempty demo_lookup both_filters /\
  parse_text demo_lookup 5 (n_services both_state) true false both_text = Ok both_policy /\
  map fst (flat_map snd both_policy) = [both_old; both_web; both_rest] /\
  aimed "nftables" both_filters = [(["inet"; "input"], snd (hd ([], []) both_filters))] /\
  aimed "iptables" both_filters = [(["INPUT"], snd (hd ([], []) both_filters))] /\
  aimed "pcap" both_filters = [(["lab"; "inet"], snd (hd ([], []) both_filters))].
Proof.
  split; [vm_compute; reflexivity|]. split; [vm_compute; reflexivity|]. split; [exact both_lookup|]. split; [exact both_laid_out|].
  split; [apply C66_grammar_exact; vm_compute; reflexivity|]. split; [exact both_names|]. split; [vm_compute; reflexivity|]. repeat split.
Qed.
Lemma both_expired : ~ in_force both_day both_old.
Proof. intros H. specialize (H 737484 eq_refl). vm_compute in H. discriminate H. Qed.
Lemma both_web_nft fams : nft_term_ok fams both_web.
Proof.
  PropsNft.nft_simple; [intros q [<-|[]]; apply str_in_spec; reflexivity|PropsNft.no_in| |PropsNft.no_in|].
  - intros r [<-|[]]. cbn. repeat match goal with |- _ /\ _ => split end; try lia; try discriminate. intros q [<-|[]]. cbn. auto.
  - split; [PropsNft.no_in|]. right. right. reflexivity.
Qed.
Lemma both_rest_nft fams : nft_term_ok fams both_rest.
Proof. PropsNft.nft_simple; [PropsNft.no_in|PropsNft.no_in|PropsNft.no_in|PropsNft.no_in|]. split; [|left; reflexivity]. PropsNft.no_in. Qed.
Example C76_example_nftables : exists gs lines, for_platform "nftables" both_policy = Ok gs /\ nft_of both_day both_policy = Ok lines /\
  nft_policy_ok both_day (map nft_filter_of gs).
Proof.
  eexists _, _. split; [vm_compute; reflexivity|]. split; [vm_compute; reflexivity|].
  change (nft_policy_ok both_day [(mkNftHeader ["inet"; "input"] [], [both_old; both_web; both_rest])]). constructor.
  - vm_compute. repeat (apply NoDup_cons; [intros X; cbn in X; repeat (destruct X as [X|X]; [discriminate X|]); destruct X|]). apply NoDup_nil.
  - intros n h terms i E I. destruct n as [|[|n]]; [|discriminate E|discriminate E]. injection E as <- <-. vm_compute in I. injection I as <-. split; reflexivity.
  - intros h terms c [E|[]] I. injection E as <- <-. destruct I.
  - intros h terms i t [E|[]] I It A. injection E as <- <-. destruct It as [<-|[<-|[<-|[]]]]; [|apply both_web_nft|apply both_rest_nft].
    exfalso. apply both_expired. apply A.
Qed.
Lemma both_web_ipt : ipt_term_ok (ipt_cfg_of false [] (mkIptHeader "INPUT" [] [])) both_web.
Proof.
  PropsIptables.ipt_simple.
  - intros q [<-|[]]; (split; [apply str_in_spec; reflexivity|discriminate]).
  - repeat split; PropsIptables.no_in.
  - intros r [<-|[]]; (split; [unfold port_ok; cbn; lia|]); (split; [discriminate|]); cbn; intuition.
  - split; PropsIptables.no_in.
  - PropsIptables.no_in.
  - split; [cbn; auto|split; [|discriminate]]. intros ((o & [] & _) & _).
  - intros (q & I & [<-|[]]); cbn in I; intuition discriminate.
  - repeat split; PropsIptables.no_in.
  - PropsIptables.no_in.
  - PropsIptables.no_in.
Qed.
Lemma both_rest_ipt : ipt_term_ok (ipt_cfg_of false [] (mkIptHeader "INPUT" [] [])) both_rest.
Proof.
  PropsIptables.ipt_simple; [PropsIptables.no_in|repeat split; PropsIptables.no_in|PropsIptables.no_in|split; PropsIptables.no_in|PropsIptables.no_in|split; [cbn; auto|split; [|discriminate]]|PropsIptables.no_in|repeat split; PropsIptables.no_in|PropsIptables.no_in|PropsIptables.no_in].
  intros ((o & [] & _) & _).
Qed.
Example C76_example_iptables : exists gs hs lines, for_platform "iptables" both_policy = Ok gs /\ mapM ipt_filter_of gs = Ok hs /\
  ipt_of false both_day both_policy = Ok lines /\ ipt_policy_ok false both_day V4 hs.
Proof.
  eexists _, _, _. split; [vm_compute; reflexivity|]. split; [vm_compute; reflexivity|]. split; [vm_compute; reflexivity|].
  change (ipt_policy_ok false both_day V4 [(mkIptHeader "INPUT" [] [], [both_old; both_web; both_rest])]). constructor.
  - intros h ts [E|[]]; injection E as <- <-; cbn; intuition discriminate.
  - split; [repeat constructor; cbn; intuition discriminate|]. intros h ts [E|[]]; injection E as <- <-; (split; [discriminate|reflexivity]).
  - intros before h terms t (f1 & f2 & E & ->) I L. destruct f1 as [|x [|y f1]]; try discriminate E.
    injection E as <- <- <-. destruct I as [<-|[<-|[<-|[]]]]; [|exact both_web_ipt|exact both_rest_ipt]. exfalso. apply both_expired. exact L.
Qed.
Lemma both_web_pcap : pcap_term_ok "inet" both_web.
Proof.
  PropsPcap.pcap_simple.
  - intros n [<-|[]] (X & _). discriminate X.
  - intros q [<-|[]]; apply str_in_spec; reflexivity.
  - intros r [<-|[]]; (split; [cbn; lia|]; split; [discriminate|]; intros q [<-|[]]; left; reflexivity).
  - split; [PropsPcap.pno|]. split; [PropsPcap.pno|left; reflexivity].
  - PropsPcap.pno.
Qed.
Lemma both_rest_pcap : pcap_term_ok "inet" both_rest.
Proof. PropsPcap.pcap_simple; [PropsPcap.pno|PropsPcap.pno|PropsPcap.pno| |PropsPcap.pno]. split; [PropsPcap.pno|]. split; [PropsPcap.pno|left; reflexivity]. Qed.
Example C76_example_pcap : exists gs expr, for_platform "pcap" both_policy = Ok gs /\ pcap_of false both_day both_policy = Ok expr /\
  pcap_policy_ok (pcap_shape both_day) both_day (map pcap_filter_of gs).
Proof.
  eexists _, _. split; [vm_compute; reflexivity|]. split; [vm_compute; reflexivity|].
  change (pcap_policy_ok (pcap_shape both_day) both_day [(["inet"], [both_old; both_web; both_rest])]).
  split; [discriminate|]. split; [right; intros f [<-|[]] [[X|[]]|[X|[]]]; discriminate X|]. intros f [<-|[]]. split.
  - exists [], both_web, [both_rest]. split; [reflexivity|]. split; [cbn; lia|]. split; [intros d []|]. split; [exists []; reflexivity|].
    split; [left; discriminate|]. split; [right; eexists; split; [left; reflexivity|left; reflexivity]|].
    intros r [<-|[]]. split; [exists "deny", []; split; [reflexivity|cbn; auto]|]. intros [X|X]; exact (X eq_refl).
  - intros t [<-|[<-|[<-|[]]]] L; [|exact both_web_pcap|exact both_rest_pcap]. exfalso. apply both_expired. exact L.
Qed.
