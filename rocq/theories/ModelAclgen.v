(** Model of capirca/aclgen.py: which files a run writes, and of capirca/utils/config.py.
    Not modelled: the discovery of policy files (DescendDirectory), logging, the reading of
    policy files. The generators are a parameter: the text each of them returns. *)
From Verif Require Export ModelGen.
Local Open Scope string_scope.
Local Open Scope list_scope.
Local Open Scope Z_scope.

(** A path: directory and file name. A disk: the contents of the files that exist. *)
Definition path : Type := string * string.
(** equality of paths (aclgen.py:489-490) *)
Definition path_eqb (a b : path) : bool := String.eqb (fst a) (fst b) && String.eqb (snd a) (snd b).
(** what is on disk before the run (aclgen.py:514-518) *)
Definition disk : Type := path -> option string.

(** open(name, 'r').read(): universal newlines (CR LF and lone CR become LF) *)
Definition cr : ascii := "013".
(** the text mode of open, as used at aclgen.py:513-516 *)
Fixpoint universal_newlines (s : string) : string :=
  match s with
  | "" => ""
  | String c s' =>
      if Ascii.eqb c cr then
        match s' with
        | String d s'' => if Ascii.eqb d newline then String newline (universal_newlines s'')
                          else String newline (universal_newlines s')
        | "" => String newline ""
        end
      else String c (universal_newlines s')
  end.
(** str(open(name, 'rb').read()): the Python literal of the bytes *)
Definition hex_digit (n : nat) : ascii := match String.get n "0123456789abcdef" with Some c => c | None => "0"%char end.
(** one byte of that literal (aclgen.py:515-516) *)
Definition repr_byte (quote c : ascii) : string :=
  let n := nat_of_ascii c in
  if Ascii.eqb c "\" then "\\"
  else if Ascii.eqb c quote then String "\" (String quote "")
  else if Ascii.eqb c newline then "\n"
  else if Ascii.eqb c cr then "\r"
  else if (n =? 9)%nat then "\t"
  else if ((n <? 32) || (127 <=? n))%nat then String "\" (String "x" (String (hex_digit (n / 16)) (String (hex_digit (n mod 16)) "")))
  else String c "".
(** all its bytes *)
Fixpoint repr_bytes_aux (quote : ascii) (s : string) : string :=
  match s with "" => "" | String c s' => append (repr_byte quote c) (repr_bytes_aux quote s') end.
(** str of the bytes read (aclgen.py:516) *)
Definition repr_bytes (s : string) : string :=
  let quote : ascii := if has_char "039" s && negb (has_char dquote s) then dquote else "039"%char in
  String "b" (String quote (append (repr_bytes_aux quote s) (String quote ""))).

(** aclgen.py:520-525 *)
Definition p4_tags : list string := ["$Id:"; "$Date:"; "$Revision:"].
(** aclgen.py:499-530 FilesUpdated; [old] is what is on disk, if anything *)
Definition files_updated (old : option string) (new_text : string) (binary : bool) : bool :=
  match old with
  | None => true
  | Some c =>
      if binary then negb (String.eqb (repr_bytes c) new_text)
      else
        let keep := fun line => negb (existsb (fun t => substring_of t line) p4_tags) in
        negb (list_str_eqb (filter keep (split_char newline (universal_newlines c)))
                           (filter keep (split_char newline new_text)))
  end.

(** pathlib: (stem + '.pol').with_suffix(suffix).name, for a non-empty stem *)
Definition with_suffix (stem suffix : string) : res string :=
  if (negb (is_empty suffix) && negb (starts_with "." suffix)) || String.eqb suffix "." then Raise (Exn "ValueError")
  else Ok (append stem suffix).

(** aclgen.py:293-449 and the SUFFIX of each generator class: the platforms in the order in
    which they are rendered, the suffix passed to RenderACL, and the binary flag. *)
Definition targets : list (string * string * bool) :=
  [("juniper", ".jcl", false); ("juniperevo", ".evojcl", false); ("msmpc", ".msmpc", false); ("srx", ".srx", false);
   ("cisco", ".acl", false); ("ciscoasa", ".asa", false); ("aruba", ".aacl", false); ("brocade", ".bacl", false);
   ("arista", ".eacl", false); ("arista_tp", ".atp", false); ("ipset", ".ips", false); ("iptables", "", false);
   ("nsxv", ".nsx", false); ("nsxt", ".nsxt", false); ("openconfig", ".oacl", false); ("speedway", ".ipt", false);
   ("pcap", "-accept.pcap", false); ("pcap", "-deny.pcap", false); ("packetfilter", ".pf", false);
   ("windows_advfirewall", ".bat", false); ("srxlo", ".jsl", false); ("cisconx", ".nxacl", false);
   ("ciscoxr", ".xacl", false); ("nftables", ".nft", false); ("gce", ".gce", false); ("gce_vpc_tf", ".tf.json", false);
   ("gcp_hf", ".gcphf", false); ("paloalto", ".xml", false); ("sonic", ".json", true); ("cloudarmor", ".gca", false);
   ("k8s", ".yml", false)].

(** One policy file: where its output goes, its name, the platforms in its headers (or the
    error of the parser), and the text of each generator, by suffix (or its error). *)
Record job := mkJob {
  j_dir : string; j_stem : string; j_parse : res (list string); j_gen : string -> res string }.
(** The exceptions that RenderFile converts: policy.Error and naming.Error (aclgen.py:220),
    and the errors of the generator modules listed at aclgen.py:452-468. *)
Record known_errors := mkKnown { k_parse : exn -> bool; k_gen : exn -> bool }.
(** aclgen.py:292-470: the outputs of the platforms in turn. The result: what was appended to
    write_files, and the exception that ended the rendering, if any. *)
Fixpoint render_targets (known : known_errors) (d : disk) (j : job) (platforms : list string)
  (ts : list (string * string * bool)) : list (path * string) * option exn :=
  match ts with
  | [] => ([], None)
  | (platform, suffix, binary) :: rest =>
      if str_in platform platforms then
        match j_gen j suffix with
        | Raise e => ([], Some (if k_gen known e then Exn "ACLGeneratorError" else e))
        | Ok text =>
            match with_suffix (j_stem j) suffix with
            | Raise e => ([], Some e)
            | Ok name =>
                let out := (j_dir j, name) in
                let (ws, e) := render_targets known d j platforms rest in
                ((if files_updated (d out) text binary then [(out, text)] else []) ++ ws, e)
            end
        end
      else render_targets known d j platforms rest
  end.
(** aclgen.py:147-470 RenderFile. policy.Error and naming.Error become ACLParserError, a
    ShadingError ends the rendering without an error. *)
Definition render_file (known : known_errors) (d : disk) (j : job) : list (path * string) * option exn :=
  match j_parse j with
  | Raise e =>
      if match e with Exn n => String.eqb n "ShadingError" | _ => false end then ([], None)
      else ([], Some (if k_parse known e then Exn "ACLParserError" else e))
  | Ok platforms => render_targets known d j platforms targets
  end.

(** aclgen.py:567-597 WriteFiles, _WriteFile *)
Definition write_file (d : disk) (p : path) (text : string) : disk :=
  fun q => if path_eqb q p then Some text else d q.
(** aclgen.py:567-578 WriteFiles *)
Definition write_files (d : disk) (ws : list (path * string)) : disk :=
  fold_left (fun d w => write_file d (fst w) (snd w)) ws d.

(** aclgen.py:634-645 Run with one renderer (or a single policy file): the first exception
    ends the run before anything is written. *)
Fixpoint render_all (known : known_errors) (d : disk) (jobs : list job) : res (list (path * string)) :=
  match jobs with
  | [] => Ok []
  | j :: rest =>
      match render_file known d j with
      | (_, Some e) => Raise e
      | (ws, None) => let! ws' := render_all known d rest in Ok (ws ++ ws')
      end
  end.
(** aclgen.py:634-645, 668-669 *)
Definition run_sequential (known : known_errors) (d : disk) (jobs : list job) : res disk :=
  let! ws := render_all known d jobs in Ok (write_files d ws).
(** aclgen.py:646-675 Run with several renderers. [order] is the list the renderers filled
    together. The boolean: the run ended with errors (exit status 1). *)
Definition collected (e : exn) : bool :=
  match e with Exn n => String.eqb n "ACLParserError" || String.eqb n "ACLGeneratorError" | _ => false end.
(** aclgen.py:646-675 *)
Definition run_parallel (known : known_errors) (d : disk) (jobs : list job) (order : list (path * string)) : res (disk * bool) :=
  let errors := flat_map (fun j => match snd (render_file known d j) with Some e => [e] | None => [] end) jobs in
  match filter (fun e => negb (collected e)) errors with
  | e :: _ => Raise e
  | [] => Ok (write_files d order, some errors)
  end.

(** ** Configuration (capirca/utils/config.py) *)

(** A dictionary as a list of items, the first item of a key being the current one; null
    values are None. *)
Definition dict : Type := list (string * option string).
(** dict.get, for the dictionaries of config.py:65-76 *)
Definition lookup (k : string) (m : dict) : option (option string) := assoc k m.
(** dict.update *)
Definition update (m new : dict) : dict := new ++ m.
(** config.py:47-49, 59-62: the entries whose value is not None. The keys are unique in
    Python; here only the current item of each key counts. *)
Definition drop_null (m : dict) : dict :=
  filter (fun kv => match lookup (fst kv) m with Some (Some _) => true | _ => false end) m.
(** config.py:52-62 merge_files on the documents read: an empty document is None and
    result.update(None) raises TypeError. *)
Fixpoint merge_docs (docs : list (option dict)) (acc : dict) : res dict :=
  match docs with
  | [] => Ok (drop_null acc)
  | None :: _ => Raise (Exn "TypeError")
  | Some m :: rest => merge_docs rest (update acc m)
  end.
(** config.py:65-76 generate_configs *)
Definition generate_configs (defaults flags : dict) (docs : list (option dict)) : res dict :=
  let! files := (if some docs then merge_docs docs [] else Ok []) in
  Ok (update (update defaults (drop_null flags)) files).
