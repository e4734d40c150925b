(** Properties of a run of aclgen: which files are written, and the configuration. *)
From Verif Require Import SpecAclgen AclgenProofs PyStrFacts.
Local Open Scope string_scope.
Local Open Scope list_scope.
Local Open Scope Z_scope.

Definition nl : string := String newline "".
Definition known : known_errors := mkKnown (fun _ => true) (fun _ => true).
(** Two policies: one for two platforms, one for a third. *)
Definition gen_texts (table : list (string * string)) (suffix : string) : res string :=
  match assoc suffix table with Some t => Ok t | None => Raise (Exn "KeyError") end.
Definition job_a : job := mkJob "out" "a" (Ok ["cisco"; "juniper"]) (gen_texts [(".jcl", "term"); (".acl", append "! $Id: 2" (append nl "permit"))]).
Definition job_b : job := mkJob "out" "b" (Ok ["nftables"]) (gen_texts [(".nft", "table")]).
Definition two_jobs : list job := [job_a; job_b].
Definition disk0 : disk := fun p => if path_eqb p ("out", "a.acl") then Some (append "! $Id: 1" (append nl "permit"))
                                    else if path_eqb p ("etc", "x") then Some "x" else None.

Lemma job_a_output : forall p t b, has_output job_a p t b ->
  (p = ("out", "a.jcl") /\ t = "term" /\ b = false) \/ (p = ("out", "a.acl") /\ t = append "! $Id: 2" (append nl "permit") /\ b = false).
Proof.
  intros p t b (pls & pl & sf & E & I & T & G & ->). injection E as <-. unfold targets in T. cbn [In] in T.
  repeat (destruct T as [T|T]; [injection T as <- <- <-; cbn in I;
    first [ destruct I as [I|[I|[]]]; discriminate I | injection G as <-; auto ]|]). destruct T.
Qed.
Lemma job_b_output : forall p t b, has_output job_b p t b -> p = ("out", "b.nft") /\ t = "table" /\ b = false.
Proof.
  intros p t b (pls & pl & sf & E & I & T & G & ->). injection E as <-. unfold targets in T. cbn [In] in T.
  repeat (destruct T as [T|T]; [injection T as <- <- <-; cbn in I;
    first [ destruct I as [I|[]]; discriminate I | injection G as <-; auto ]|]). destruct T.
Qed.
Lemma two_jobs_no_clash : no_clash two_jobs.
Proof.
  intros j1 j2 p t1 t2 b1 b2 I1 I2 O1 O2. unfold two_jobs in *. cbn [In] in *.
  destruct I1 as [<-|[<-|[]]], I2 as [<-|[<-|[]]];
    repeat match goal with
    | O : has_output job_a _ _ _ |- _ => apply job_a_output in O
    | O : has_output job_b _ _ _ |- _ => apply job_b_output in O
    end; intuition (subst; congruence).
Qed.
Lemma two_jobs_plain : plain_outputs two_jobs.
Proof.
  intros j p t b I O. unfold two_jobs in *. cbn [In] in *.
  destruct I as [<-|[<-|[]]]; [apply job_a_output in O|apply job_b_output in O]; intuition (subst; reflexivity).
Qed.

(** ** C37: unchanged output is not rewritten *)

Theorem C37_text_rewritten_iff_changed : forall old new, plain_text old ->
  (files_updated (Some old) new false = true <-> ~ same_but_tags old new).
Proof.
  intros old new P. pose proof (files_updated_text old new) as H. rewrite (universal_plain _ P) in H.
  destruct (files_updated (Some old) new false); intuition congruence.
Qed.
Print Assumptions C37_text_rewritten_iff_changed.
Theorem C37_missing_file_written : forall new binary, files_updated None new binary = true.
Proof. reflexivity. Qed.
Print Assumptions C37_missing_file_written.
Example C37_example : let old := append "! $Id: 1" (append nl "permit") in
  plain_text old /\ files_updated (Some old) (append "! $Id: 2" (append nl "permit")) false = false /\
  files_updated (Some old) (append "! $Id: 1" (append nl "deny")) false = true.
Proof. vm_compute. auto. Qed.

(** Running aclgen a second time writes nothing. *)
Theorem C37_second_run_writes_nothing_partial : forall known d jobs d',
  run_sequential known d jobs = Ok d' -> no_clash jobs -> plain_outputs jobs ->
  (forall j p text, In j jobs -> ~ has_output j p text true) ->
  render_all known d' jobs = Ok [] /\ run_sequential known d' jobs = Ok d'.
Proof.
  intros k d jobs d' H NC PO NB. pose proof (second_run k d jobs d' H NC PO NB) as E. split; [exact E|].
  unfold run_sequential. rewrite E. reflexivity.
Qed.
Print Assumptions C37_second_run_writes_nothing_partial.
Example C37_second_run_example : (exists d', run_sequential known disk0 two_jobs = Ok d' /\ d' ("out", "b.nft") = Some "table" /\
    d' ("out", "a.acl") = disk0 ("out", "a.acl")) /\
  no_clash two_jobs /\ plain_outputs two_jobs /\ (forall j p text, In j two_jobs -> ~ has_output j p text true).
Proof.
  split; [eexists; split; [vm_compute; reflexivity|vm_compute; auto]|].
  split; [exact two_jobs_no_clash|]. split; [exact two_jobs_plain|].
  intros j p t [<-|[<-|[]]] O; [apply job_a_output in O|apply job_b_output in O]; intuition discriminate.
Qed.
(** What the theorem leaves out: a binary output (SONiC) that does not start with the letter b
    is rewritten in every run, whatever is on disk. *)
Theorem C37_binary_always_rewritten_refuted : forall old new, starts_with "b" new = false -> files_updated old new true = true.
Proof. exact files_updated_binary. Qed.
Print Assumptions C37_binary_always_rewritten_refuted.
Example C37_binary_example : starts_with "b" "{}" = false /\ files_updated (Some "{}") "{}" true = true.
Proof. vm_compute. auto. Qed.

(** ** C38: sequential and parallel runs *)

Theorem C38_parallel_run_writes_the_same_partial : forall known d jobs d' order,
  run_sequential known d jobs = Ok d' -> no_clash jobs ->
  interleaving (map (fun j => fst (render_file known d j)) jobs) order ->
  exists d2, run_parallel known d jobs order = Ok (d2, false) /\ forall p, d2 p = d' p.
Proof. exact parallel_same. Qed.
Print Assumptions C38_parallel_run_writes_the_same_partial.
Example C38_example : (exists d', run_sequential known disk0 two_jobs = Ok d') /\ no_clash two_jobs /\
  interleaving (map (fun j => fst (render_file known disk0 j)) two_jobs) [(("out", "b.nft"), "table"); (("out", "a.jcl"), "term")].
Proof.
  split; [eexists; reflexivity|]. split; [exact two_jobs_no_clash|].
  change (interleaving ([[(("out", "a.jcl"), "term")]] ++ [(("out", "b.nft"), "table")] :: [])
    [(("out", "b.nft"), "table"); (("out", "a.jcl"), "term")]).
  apply il_step. change (interleaving ([] ++ [(("out", "a.jcl"), "term")] :: [[]]) [(("out", "a.jcl"), "term")]).
  apply il_step. apply il_done. repeat constructor.
Qed.
(** When one policy cannot be rendered, a sequential run writes nothing at all, a parallel run
    writes the files of the others. *)
Theorem C38_error_refuted : exists d jobs order e d2 p, 
  run_sequential known d jobs = Raise e /\
  interleaving (map (fun j => fst (render_file known d j)) jobs) order /\
  run_parallel known d jobs order = Ok (d2, true) /\ d2 p <> d p.
Proof.
  exists (fun _ => None), [mkJob "out" "c" (Raise (Exn "ParseError")) (fun _ => Ok ""); job_b], [(("out", "b.nft"), "table")].
  eexists. eexists. exists ("out", "b.nft"). split; [vm_compute; reflexivity|]. split.
  - change (interleaving ([([] : list (path * string))] ++ [(("out", "b.nft"), "table")] :: []) [(("out", "b.nft"), "table")]).
    apply il_step. apply il_done. repeat constructor.
  - split; [vm_compute; reflexivity|]. vm_compute. discriminate.
Qed.
Print Assumptions C38_error_refuted.
(** Two outputs with the same file name: the order in which the renderers finish decides. A
    policy a.acl for iptables, whose suffix is empty, and a policy a for cisco. *)
Theorem C38_same_name_refuted : exists d jobs o1 o2 d1 d2 p,
  interleaving (map (fun j => fst (render_file known d j)) jobs) o1 /\
  interleaving (map (fun j => fst (render_file known d j)) jobs) o2 /\
  run_parallel known d jobs o1 = Ok (d1, false) /\ run_parallel known d jobs o2 = Ok (d2, false) /\ d1 p <> d2 p.
Proof.
  set (ja := mkJob "out" "a.acl" (Ok ["iptables"]) (fun _ => Ok "-A INPUT")).
  set (jb := mkJob "out" "a" (Ok ["cisco"]) (fun _ => Ok "permit")).
  exists (fun _ => None), [ja; jb], [(("out", "a.acl"), "-A INPUT"); (("out", "a.acl"), "permit")],
    [(("out", "a.acl"), "permit"); (("out", "a.acl"), "-A INPUT")].
  eexists. eexists. exists ("out", "a.acl").
  assert (E : map (fun j => fst (render_file known (fun _ => None) j)) [ja; jb] =
    [[(("out", "a.acl"), "-A INPUT")]; [(("out", "a.acl"), "permit")]]) by (vm_compute; reflexivity).
  rewrite E. split; [|split].
  - apply (il_step [] _ [] [[(("out", "a.acl"), "permit")]]). apply (il_step [[]] _ [] []). apply il_done. repeat constructor.
  - apply (il_step [[(("out", "a.acl"), "-A INPUT")]] _ [] []). apply (il_step [] _ [] [[]]). apply il_done. repeat constructor.
  - split; [vm_compute; reflexivity|]. split; [vm_compute; reflexivity|]. vm_compute. discriminate.
Qed.
Print Assumptions C38_same_name_refuted.

(** ** C39: configuration precedence *)

(** The value of a key: that of the last configuration file that mentions it, if it is set
    there; else the command line's, if set; else the default. *)
Theorem C39_precedence : forall defaults flags docs m k, generate_configs defaults flags docs = Ok m ->
  lookup k m = match last_mention k docs with
               | Some (Some v) => Some (Some v)
               | _ => match lookup k flags with Some (Some v) => Some (Some v) | _ => lookup k defaults end
               end.
Proof. exact generate_configs_spec. Qed.
Print Assumptions C39_precedence.
Theorem C39_succeeds_partial : forall defaults flags docs, (forall m, In m docs -> m <> None) ->
  exists m, generate_configs defaults flags docs = Ok m.
Proof. exact generate_configs_total. Qed.
Print Assumptions C39_succeeds_partial.
Example C39_example : let defaults := [("base", Some "./policies"); ("optimize", Some "False")] in
  let flags := [("base", None); ("optimize", Some "True"); ("output", Some "out")] in
  let docs := [Some [("optimize", Some "no"); ("output", Some "a")]; Some [("output", None); ("base", Some "p")]] in
  (forall m, In m docs -> m <> None) /\
  exists m, generate_configs defaults flags docs = Ok m /\
    lookup "base" m = Some (Some "p") /\ lookup "optimize" m = Some (Some "no") /\ lookup "output" m = Some (Some "out").
Proof. split; [intros m [<-|[<-|[]]]; discriminate|]. eexists. split; [reflexivity|]. vm_compute. auto. Qed.
(** An empty configuration file, which sets nothing, ends the run. *)
Theorem C39_empty_file_refuted : forall defaults flags docs, generate_configs defaults flags (None :: docs) = Raise (Exn "TypeError").
Proof. reflexivity. Qed.
Print Assumptions C39_empty_file_refuted.

(** ** C57: an interrupted run is repaired by the next *)

Theorem C57_crash_repaired : forall known d jobs ws d', render_all known d jobs = Ok ws -> crash d ws d' ->
  no_clash jobs -> plain_outputs jobs ->
  exists d2, run_sequential known d' jobs = Ok d2 /\ up_to_date jobs d2 /\ only_outputs_changed jobs d d2.
Proof. exact crash_repaired. Qed.
Print Assumptions C57_crash_repaired.
Example C57_example : exists ws d', render_all known disk0 two_jobs = Ok ws /\ crash disk0 ws d' /\
  d' ("out", "a.jcl") = Some "term" /\ d' ("out", "b.nft") = Some "ta" /\ no_clash two_jobs /\ plain_outputs two_jobs.
Proof.
  exists [(("out", "a.jcl"), "term"); (("out", "b.nft"), "table")]. eexists. split; [vm_compute; reflexivity|].
  split; [apply (crash_within _ _ [(("out", "a.jcl"), "term")] ("out", "b.nft") "ta" "ble" []); reflexivity|].
  split; [vm_compute; reflexivity|]. split; [vm_compute; reflexivity|]. split; [exact two_jobs_no_clash|exact two_jobs_plain].
Qed.

(** ** C58: every platform named by a policy gets its file *)

Theorem C58_outputs_written_partial : forall known d jobs d', run_sequential known d jobs = Ok d' -> no_clash jobs -> plain_outputs jobs ->
  up_to_date jobs d' /\ only_outputs_changed jobs d d' /\
  (forall j p text c, In j jobs -> has_output j p text false -> d p = Some c -> same_but_tags (universal_newlines c) text -> d' p = d p).
Proof. exact run_updates. Qed.
Print Assumptions C58_outputs_written_partial.
(** No policy fails if its text can be parsed, its generators return and it is not for pcap. *)
Theorem C58_rendering_succeeds_partial : forall known d j platforms, j_parse j = Ok platforms -> ~ In "pcap" platforms ->
  (forall platform suffix b, In platform platforms -> In (platform, suffix, b) targets -> exists text, j_gen j suffix = Ok text) ->
  snd (render_file known d j) = None.
Proof. exact render_succeeds. Qed.
Print Assumptions C58_rendering_succeeds_partial.
Example C58_example : exists d', run_sequential known disk0 two_jobs = Ok d' /\ no_clash two_jobs /\ plain_outputs two_jobs /\
  has_output job_a ("out", "a.jcl") "term" false /\ d' ("out", "a.jcl") = Some "term" /\ d' ("etc", "x") = Some "x".
Proof.
  eexists. split; [vm_compute; reflexivity|]. split; [exact two_jobs_no_clash|]. split; [exact two_jobs_plain|].
  split; [|vm_compute; auto]. exists ["cisco"; "juniper"], "juniper", ".jcl". split; [reflexivity|]. split; [right; left; reflexivity|].
  split; [left; reflexivity|]. split; reflexivity.
Qed.
(** A policy for pcap is never rendered: its two suffixes do not start with a period, which
    pathlib refuses. *)
Theorem C58_pcap_fails_refuted : forall known d j platforms, j_parse j = Ok platforms -> In "pcap" platforms ->
  exists e, snd (render_file known d j) = Some e.
Proof. exact pcap_fails. Qed.
Print Assumptions C58_pcap_fails_refuted.
Example C58_pcap_example : exists platforms, j_parse (mkJob "out" "a" (Ok ["pcap"]) (fun _ => Ok "port 1")) = Ok platforms /\ In "pcap" platforms /\
  render_file known disk0 (mkJob "out" "a" (Ok ["pcap"]) (fun _ => Ok "port 1")) = ([], Some (Exn "ValueError")).
Proof. exists ["pcap"]. split; [reflexivity|]. split; [left; reflexivity|]. vm_compute. reflexivity. Qed.
(** A policy with a shaded term, when shade checking is on, is passed over: the run goes on
    and ends as if the policy were not there. *)
Theorem C58_shaded_policy_passed_over : forall known d before j after order, j_parse j = Raise (Exn "ShadingError") ->
  run_sequential known d (before ++ j :: after) = run_sequential known d (before ++ after) /\
  run_parallel known d (before ++ j :: after) order = run_parallel known d (before ++ after) order.
Proof.
  intros known d before j after order E. assert (R : render_file known d j = ([], None)) by (unfold render_file; rewrite E; reflexivity). split.
  - unfold run_sequential. assert (A : render_all known d (before ++ j :: after) = render_all known d (before ++ after)); [|rewrite A; reflexivity].
    induction before as [|b before IH]; cbn [app render_all]; [rewrite R; destruct (render_all known d after); reflexivity|]. rewrite IH. reflexivity.
  - unfold run_parallel. rewrite !flat_map_app. cbn [flat_map]. rewrite R. reflexivity.
Qed.
Print Assumptions C58_shaded_policy_passed_over.
Example C58_shaded_example : exists d', run_sequential known disk0 [job_a; mkJob "out" "s" (Raise (Exn "ShadingError")) (fun _ => Ok ""); job_b] = Ok d' /\
  d' ("out", "a.jcl") = Some "term" /\ d' ("out", "b.nft") = Some "table".
Proof. eexists. split; [vm_compute; reflexivity|]. vm_compute. auto. Qed.
(** Any other error of the parser ends a run with one renderer, and nothing is written. *)
Theorem C58_parse_error_ends_run : forall known d before j after e, j_parse j = Raise e -> e <> Exn "ShadingError" ->
  exists e', run_sequential known d (before ++ j :: after) = Raise e'.
Proof.
  intros known d before j after e E N. unfold run_sequential. induction before as [|b before IH]; cbn [app render_all].
  - assert (R : exists e', render_file known d j = ([], Some e')).
    { unfold render_file. rewrite E. destruct e as [n|]; [|eexists; reflexivity]. destruct (String.eqb n "ShadingError") eqn:En; [apply String.eqb_eq in En; congruence|]. eexists. reflexivity. }
    destruct R as (e' & R). rewrite R. eexists. reflexivity.
  - destruct (render_file known d b) as (ws & [e'|]); [eexists; reflexivity|]. destruct IH as (e' & IH). destruct (render_all known d (before ++ j :: after)); [discriminate IH|]. eexists. reflexivity.
Qed.
Print Assumptions C58_parse_error_ends_run.
Example C58_parse_error_example : exists e', run_sequential known disk0 [job_a; mkJob "out" "s" (Raise (Exn "ParseError")) (fun _ => Ok ""); job_b] = Raise e'.
Proof. apply (C58_parse_error_ends_run known disk0 [job_a] _ [job_b] (Exn "ParseError")); [reflexivity|discriminate]. Qed.
