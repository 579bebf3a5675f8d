(** Vocabulary: how a diff is read. *)
From Verif Require Import Base Storage Diff.
Local Open Scope list_scope.
Local Open Scope Z_scope.

(** The two texts an edit script is about, line by line; lines common to both
    are the same on both sides. *)
Fixpoint left_lines (l : list edit) : list (list Z) :=
  match l with
  | [] => []
  | Left x :: r | Both x _ :: r => x :: left_lines r
  | Right _ :: r => left_lines r
  end.
Fixpoint right_lines (l : list edit) : list (list Z) :=
  match l with
  | [] => []
  | Right x :: r | Both _ x :: r => x :: right_lines r
  | Left _ :: r => right_lines r
  end.
Definition common_equal (l : list edit) : Prop := forall x y, In (Both x y) l -> x = y.

(** The lines of a text, separated by line feeds. *)
Fixpoint lines_of (t : list Z) : list (list Z) :=
  match t with
  | [] => [[]]
  | c :: t =>
      if c =? 10 then [] :: lines_of t
      else match lines_of t with x :: r => (c :: x) :: r | [] => [[c]] end
  end.

(** What a user sees on the left and on the right side of a diff: lines with
    the marks [-] and [+] belong to one side, lines with a space to both. *)
Definition shown (mark : Z) (t : list Z) : list (list Z) :=
  flat_map (fun line => match line with
    | c :: x => if (c =? mark) || (c =? 32) then [x] else []
    | [] => []
    end) (lines_of t).
Definition marked (t : list Z) : Prop := exists c x, In (c :: x) (lines_of t) /\ (c = 45 \/ c = 43).

(** An edit script from [l] to [r], line by line. *)
Record script (l r : list Z) (es : list edit) : Prop := {
  script_left : left_lines es = lines_of l;
  script_right : right_lines es = lines_of r;
  script_common : common_equal es }.

(** The kind of an error. *)
Definition same_kind (x y : rs_error) : Prop :=
  match x, y with
  | EIo _ _, EIo _ _ | EUtf8, EUtf8 | EMissingSchema _, EMissingSchema _
  | EWrongSignature _, EWrongSignature _ | EUnexpectedDataSize, EUnexpectedDataSize => True
  | _, _ => False
  end.
