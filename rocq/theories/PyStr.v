(** The Python [str] methods the modelled code uses, on ASCII strings. *)
From Verif Require Export Base.

(** str.isspace for one ASCII character: tab, LF, VT, FF, CR, FS-US, space. *)
Definition is_ws (c : ascii) : bool :=
  let k := nat_of_ascii c in
  (((9 <=? k) && (k <=? 13)) || ((28 <=? k) && (k <=? 32)))%nat.
Definition is_alpha (c : ascii) : bool :=
  let k := nat_of_ascii c in
  (((65 <=? k) && (k <=? 90)) || ((97 <=? k) && (k <=? 122)))%nat.
Definition is_digit (c : ascii) : bool :=
  let k := nat_of_ascii c in ((48 <=? k) && (k <=? 57))%nat.

(** str.lstrip(), str.rstrip(), str.strip() without argument. *)
Fixpoint lstrip (s : string) : string :=
  match s with
  | String c s' => if is_ws c then lstrip s' else s
  | EmptyString => ""
  end.
Fixpoint rstrip (s : string) : string :=
  match s with
  | EmptyString => ""
  | String c s' =>
      let r := rstrip s' in
      if is_ws c && is_empty r then "" else String c r
  end.
Definition strip (s : string) : string := rstrip (lstrip s).

(** [c in s] for a one-character string. *)
Fixpoint has_char (c : ascii) (s : string) : bool :=
  match s with
  | EmptyString => false
  | String d s' => Ascii.eqb d c || has_char c s'
  end.

(** s.split(c)[0] and, when [c] occurs, s.split(c, 1)[1]. *)
Fixpoint before_char (c : ascii) (s : string) : string :=
  match s with
  | EmptyString => ""
  | String d s' => if Ascii.eqb d c then "" else String d (before_char c s')
  end.
Fixpoint after_char (c : ascii) (s : string) : string :=
  match s with
  | EmptyString => ""
  | String d s' => if Ascii.eqb d c then s' else after_char c s'
  end.

(** s.split(c) for a one-character separator. *)
Fixpoint split_char (c : ascii) (s : string) : list string :=
  match s with
  | EmptyString => [""%string]
  | String d s' =>
      if Ascii.eqb d c then ""%string :: split_char c s'
      else match split_char c s' with
           | w :: ws => String d w :: ws
           | [] => [String d ""]
           end
  end.

(** s.split() on runs of whitespace; [cur] is the word being read. *)
Fixpoint split_ws_aux (s cur : string) : list string :=
  match s with
  | EmptyString => if is_empty cur then [] else [cur]
  | String c s' =>
      if is_ws c then
        if is_empty cur then split_ws_aux s' "" else cur :: split_ws_aux s' ""
      else split_ws_aux s' (append cur (String c ""))
  end.
Definition split_ws (s : string) : list string := split_ws_aux s "".

(** str.upper() / str.lower() on ASCII. *)
Definition upper_char (c : ascii) : ascii :=
  let k := nat_of_ascii c in
  if ((97 <=? k) && (k <=? 122))%nat then ascii_of_nat (k - 32) else c.
Definition lower_char (c : ascii) : ascii :=
  let k := nat_of_ascii c in
  if ((65 <=? k) && (k <=? 90))%nat then ascii_of_nat (k + 32) else c.
Fixpoint map_string (f : ascii -> ascii) (s : string) : string :=
  match s with EmptyString => "" | String c s' => String (f c) (map_string f s') end.
Definition upper : string -> string := map_string upper_char.
Definition lower : string -> string := map_string lower_char.

Fixpoint forall_char (f : ascii -> bool) (s : string) : bool :=
  match s with EmptyString => true | String c s' => f c && forall_char f s' end.
Definition starts_with (p s : string) : bool := String.prefix p s.

(** Python string ordering on parent tokens (code points; ASCII here). *)
Fixpoint str_leb (a b : string) : bool :=
  match a, b with
  | EmptyString, _ => true
  | String _ _, EmptyString => false
  | String x a', String y b' =>
      if (nat_of_ascii x <? nat_of_ascii y)%nat then true
      else if (nat_of_ascii y <? nat_of_ascii x)%nat then false
      else str_leb a' b'
  end.

(** [sorted(set(l))] for strings. *)
Fixpoint nodup_str (l : list string) : list string :=
  match l with
  | [] => []
  | s :: l' => if str_in s l' then nodup_str l' else s :: nodup_str l'
  end.
Definition sorted_set (l : list string) : list string := py_sorted str_leb (nodup_str l).
