(** Model of the Debug implementations: src/archive.rs (define_struct!,
    define_variadic_struct!, define_archive!), intersperse! (src/helper.rs),
    src/arrayview.rs, src/multiarrayview.rs, src/vector.rs, src/multivector.rs,
    src/structbuf.rs, ResourceHandle and MemoryDescriptor (src/storage.rs).
    All of them use [write!] with [{}] or [{:?}], so that flags given by the
    caller (as in [{:#?}]) have no effect, except on MemoryDescriptor. *)
From Coq Require Import DecimalString.
From Coq Require Export String.
From Verif Require Import Base Codec Structs Views Storage Writers MultiViews Archives.
Local Open Scope string_scope.
Local Open Scope list_scope.
Local Open Scope Z_scope.
Infix "+++" := String.append (at level 60, right associativity).

(** * Formatting of the standard library *)
(** Integers with [{}] and [{:?}] *)
Definition dec (z : Z) : string := NilZero.string_of_int (Z.to_int z).
Definition bool_text (x : bool) : string := if x then "true" else "false".
(** Vec<T>, tuples, Option<T> with [{:?}] *)
Definition list_text (l : list string) : string := "[" +++ String.concat ", " l +++ "]".
Definition pair_text (x y : string) : string := "(" +++ x +++ ", " +++ y +++ ")".
Definition opt_text (opt : bool) (o : option string) : string :=
  if opt then match o with Some t => "Some(" +++ t +++ ")" | None => "None" end
  else match o with Some t => t | None => "" end.

(** intersperse!, helper.rs:61-65 *)
Definition intersperse (l : list string) : string := String.concat ", " l.

(** * Structs, archive.rs:247-254 *)
(** How a value is shown: by its type ($type in archive.rs:206).  The derived Debug of an
    enum is the name of the enumerator. *)
Inductive shape := AsNumber | AsBool | AsEnum (names : list (Z * string)).
(** stringify!($factory), and stringify!($field) with the type of each field *)
Record names := mkNames { n_struct : string; n_fields : list (string * shape) }.

Definition enum_text (l : list (Z * string)) (v : Z) : string :=
  match find (fun x => fst x =? v) l with Some x => snd x | None => "" end.
Definition value_text (sh : shape) (v : Z) : string :=
  match sh with
  | AsNumber => dec v
  | AsBool => bool_text (negb (v =? 0))
  | AsEnum l => enum_text l v
  end.
Section Env.
Variables (b : build) (e : endian).
Definition get_value (sh : shape) (f : field) (m : list Z) : outcome Z :=
  match sh with AsEnum l => get_enum b e (map fst l) f m | _ => get_field b e f m end.
Fixpoint field_texts (fs : list field) (ns : list (string * shape)) (m : list Z) : outcome (list string) :=
  match fs, ns with
  | f :: fs, (n, sh) :: ns =>
      v <- get_value sh f m ;;
      r <- field_texts fs ns m ;;
      Ret ((n +++ ": " +++ value_text sh v) :: r)
  | _, _ => Ret []
  end.
Definition struct_text (s : sdesc) (n : names) (m : list Z) : outcome string :=
  l <- field_texts (s_fields s) (n_fields n) m ;;
  Ret (n_struct n +++ " { " +++ intersperse l +++ " }").

(** StructBuf, structbuf.rs:86-93 *)
Definition sb_text (s : sdesc) (n : names) (data : list Z) : outcome string :=
  t <- struct_text s n (sb_get data) ;;
  Ret ("StructBuf { resource: " +++ t +++ " }").

(** * Views *)
Definition dots (l : Z) : string := if l <=? DEBUG_PREVIEW_LEN then "" else "...".
(** debug_format, arrayview.rs:140-162; ArrayView 164-171, ArrayViewIter 259-266 *)
Definition view_text (title : string) (s : sdesc) (n : names) (v : view) : outcome string :=
  let l := av_iter_len s v in
  preview <- av_take b s (Z.to_nat DEBUG_PREVIEW_LEN) v ;;
  ts <- map_outcome (struct_text s n) preview ;;
  Ret (title +++ " { len: " +++ dec l +++ ", data: " +++ list_text ts +++ dots l +++ " }").
Definition av_text := view_text "ArrayView".
Definition av_iter_text := view_text "ArrayViewIter".
(** Vector, vector.rs:187-194 *)
Definition vec_text (s : sdesc) (n : names) (data : list Z) : outcome string :=
  v <- vec_as_view b data ;; view_text "Vector" s n v.

(** The derived enum, archive.rs:346-352; [ns] are the names of its alternatives *)
Definition item_text (ts : vdesc) (ns : list names) (i : item) : outcome string :=
  struct_text (v_struct ts (fst i)) (nth (fst i) ns (mkNames "" [])) (snd i).
(** MultiArrayViewItemIter, multiarrayview.rs:133-141 *)
Definition item_iter_text (ts : vdesc) (ns : list names) (d : slice) : outcome string :=
  preview <- item_collect ts d ;;
  l <- map_outcome (item_text ts ns) preview ;;
  Ret ("MultiArrayViewItemIter { data: " +++ list_text l +++ " }").
(** [enumerate] *)
Fixpoint numbered (i : Z) (l : list string) : list string :=
  match l with [] => [] | x :: r => pair_text (dec i) x :: numbered (i + 1) r end.
(** debug_format, multiarrayview.rs:143-170; MultiArrayView 172-180,
    MultiArrayViewIter 218-226 *)
Definition multi_text (title : string) (size bits : Z) (ts : vdesc) (ns : list names) (v : mav) : outcome string :=
  l <- mav_iter_len b size bits v ;;
  preview <- mav_take b e size bits ts (Z.to_nat DEBUG_PREVIEW_LEN) v ;;
  bs <- map_outcome (map_outcome (item_text ts ns)) preview ;;
  Ret (title +++ " { len: " +++ dec l +++ ", data: " +++ list_text (numbered 0 (map list_text bs)) +++ dots l +++ " }").
Definition mav_text := multi_text "MultiArrayView".
Definition mav_iter_text := multi_text "MultiArrayViewIter".
End Env.

(** * Writers *)
(** ExternalVector, vector.rs:346-353 *)
Definition ev_text (v : ext_vec) : string := "ExternalVector { len: " +++ dec (ev_len v) +++ " }".
(** MultiVector, multivector.rs:210-218 *)
Definition mv_text (v : multi_vec) : string := "MultiVector { len: " +++ dec (ev_len (mv_index v)) +++ " }".
(** ResourceHandle, storage.rs:362-371; is_open is storage.rs:301-303 *)
Definition handle_text (h : handle) : string :=
  "ResourceHandle { is_open: " +++ bool_text (match h_stream h with Some _ => true | None => false end) +++
  ", size_in_bytes: " +++ dec (h_size h) +++ " }".

(** * Archives, archive.rs:564-580 *)
(** The names in the types of the resources of an archive. *)
Inductive anames := mkANames
  (structs vectors : list names) (multis : list (list names)) (subs : list anames).
Definition no_names := mkANames [] [] [] [].

Section Archive.
Variables (b : build) (e : endian).
(** Where memory is: the text of a pointer. *)
Variable (addr : slice -> string).
(** The derived Debug of MemoryDescriptor, storage.rs:223-228 *)
Definition memory_text (d : slice) : string :=
  "MemoryDescriptor { ptr: " +++ addr d +++ ", size: " +++ dec (sl_len d) +++ " }".

Definition opt_run {A} (f : A -> outcome string) (o : option A) : outcome (option string) :=
  match o with Some x => t <- f x ;; Ret (Some t) | None => Ret None end.
Definition labelled (name : string) (opt : bool) (o : option string) : string := name +++ ": " +++ opt_text opt o.
(** Resources of one kind, from position [k] on. *)
Fixpoint part_texts {R} (one : nat -> R -> outcome string) (k : nat) (l : list R) : outcome (list string) :=
  match l with
  | [] => Ret []
  | r :: l => t <- one k r ;; ts <- part_texts one (S k) l ;; Ret (t :: ts)
  end.
Fixpoint archive_text (a : adesc) (ns : anames) (x : archive) {struct a} : outcome string :=
  let 'mkArchive name _ structs vectors multis raws subs := a in
  let 'mkANames n1 n2 n3 n4 := ns in
  t1 <- part_texts (fun k r =>
          t <- opt_run (struct_text b e (tr_struct r) (nth k n1 (mkNames "" []))) (get_struct x k) ;;
          Ret (labelled (tr_name r) (tr_opt r) t)) 0 structs ;;
  t2 <- part_texts (fun k r =>
          t <- opt_run (av_text b e (tr_struct r) (nth k n2 (mkNames "" []))) (get_vector x k) ;;
          Ret (labelled (tr_name r) (tr_opt r) t)) 0 vectors ;;
  t3 <- part_texts (fun k r =>
          t <- opt_run (mav_text b e (mr_size r) (mr_bits r) (mr_types r) (nth k n3 [])) (get_multi x k) ;;
          Ret (labelled (mr_name r) (mr_opt r) t)) 0 multis ;;
  let t4 := map (fun p => labelled (rr_name (snd p)) (rr_opt (snd p)) (option_map memory_text (get_raw x (fst p))))
                (combine (seq 0 (List.length raws)) raws) in
  t5 <- (fix go (k : nat) (l : list (string * adesc * bool)) : outcome (list string) :=
           match l with
           | [] => Ret []
           | (n, a', opt) :: l =>
               t <- opt_run (archive_text a' (nth k n4 no_names)) (get_sub x k) ;;
               ts <- go (S k) l ;;
               Ret (labelled n opt t :: ts)
           end) O subs ;;
  Ret (name +++ " { " +++ intersperse ("" :: t1 ++ t2 ++ t3 ++ t4 ++ t5) +++ " }").
End Archive.
