(** Model of the texts of errors: the derived Debug of ResourceStorageError
    (src/error.rs:10) and its Display (src/error.rs:50-54), which is the same text.
    Texts are lists of characters (code points). *)
From Coq Require Export String.
From Verif Require Import Base Storage.
Local Open Scope string_scope.
Local Open Scope list_scope.
Local Open Scope Z_scope.

(** * Strings with [{:?}] (standard library) *)
(** Not the same in all versions: whether a single quote is escaped, whether NUL
    is shown as [\0] instead of [\u{0}], and which characters from 127 on are
    shown as they are. *)
Record std := mkStd { single_escaped : bool; short_nul : bool; printable : Z -> bool }.
Definition hex_digit (d : Z) : Z := if d <? 10 then 48 + d else 87 + d.
(** Without leading zeros; up to 8 digits, which is more than a character has. *)
Fixpoint hex_digits (n : nat) (c : Z) : list Z :=
  match n with
  | O => []
  | S n => (if c <? 16 then [] else hex_digits n (c / 16)) ++ [hex_digit (c mod 16)]
  end.
Definition hex (c : Z) : list Z := hex_digits 8 c.
Definition escape (v : std) (c : Z) : list Z :=
  if c =? 9 then str "\t" else if c =? 13 then str "\r" else if c =? 10 then str "\n"
  else if c =? 92 then [92; 92] else if c =? 34 then [92; 34]
  else if c =? 39 then if single_escaped v then [92; 39] else [39]
  else if (c =? 0) && short_nul v then str "\0"
  else if (32 <=? c) && (c <? 127) || (127 <=? c) && printable v c then [c]
  else str "\u{" ++ hex c ++ str "}".
Definition quoted (v : std) (s : list Z) : list Z := 34 :: flat_map (escape v) s ++ [34].

(** * Errors, error.rs:11-39 *)
(** With the texts of the errors of the standard library inside (their Debug). *)
Inductive error :=
| Io (err name : list Z) | Utf8Error (err : list Z) | MissingSchema (name : list Z)
| WrongSignature (name diff : list Z) | UnexpectedDataSize.

(** derive(Debug), error.rs:10, with [{:?}] *)
Definition debug_text (v : std) (x : error) : list Z :=
  match x with
  | Io err name => str "Io(" ++ err ++ str ", " ++ quoted v name ++ str ")"
  | Utf8Error err => str "Utf8Error(" ++ err ++ str ")"
  | MissingSchema name => str "MissingSchema(" ++ quoted v name ++ str ")"
  | WrongSignature name diff =>
      str "WrongSignature { resource_name: " ++ quoted v name ++ str ", diff: " ++ quoted v diff ++ str " }"
  | UnexpectedDataSize => str "UnexpectedDataSize"
  end.
(** fmt, error.rs:51-53 *)
Definition display_text (v : std) (x : error) : list Z := debug_text v x.
