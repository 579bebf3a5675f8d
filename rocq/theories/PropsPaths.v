(** Property C102: which file or entry a name stands for.  Vocabulary: PathSpec.v
    ([no_parent]: no [..] in a path; [ends_with_name]; [ends_with_dot]; [names_of]: the
    components; [shows]: the disk of a world is a tree). *)
From Verif Require Import Base Storage PathFacts SpellFacts StorageSpec PropsStorage Paths PathSpec PathsFacts.
Local Open Scope list_scope.
Local Open Scope Z_scope.

(** C102: for names without [..] that end with a name, the calls of a file storage are
    those of a POSIX system with path resolution: whether a resource exists, ... *)
Theorem C102_exists cwd t w id base n (a := is_absolute base) (at_ := if a then [] else cwd) :
  tree_ok t -> shows a at_ t w -> w_faults w = [] -> no_parent base ->
  is_absolute n = false -> no_parent n -> ends_with_name n ->
  exists_ (FileStorage id base) n w = (Ret (tree_exists cwd t base n), w).
Proof. exact (exists_agrees cwd t w id base n). Qed.
Print Assumptions C102_exists.

(** ... what is read and with which error it fails, ... *)
Theorem C102_read cwd t w id base n (a := is_absolute base) (at_ := if a then [] else cwd) :
  tree_ok t -> shows a at_ t w -> w_faults w = [] -> no_parent base ->
  is_absolute n = false -> no_parent n -> ends_with_name n -> w_maps w id (path_join base n) = None ->
  fst (read_resource (FileStorage id base) n w) = Ret (match tree_read cwd t base n with Ok c => Ok (whole c) | Er k => Er k end).
Proof. exact (read_agrees cwd t w id base n). Qed.
Print Assumptions C102_read.

(** ... and what is created, with all directories, made one by one as the standard
    library does it.  The directory is not a file; if its path ends with [.] it exists. *)
Theorem C102_create cwd t w id base n (a := is_absolute base) (at_ := if a then [] else cwd) :
  tree_ok t -> t at_ = Some NDir -> shows a at_ t w -> w_faults w = [] ->
  no_parent base -> ~ is_nfile (t (at_ ++ names_of base)) -> (ends_with_dot base -> t (at_ ++ names_of base) = Some NDir) ->
  is_absolute n = false -> no_parent n -> ends_with_name n ->
  exists w', create_output_stream (FileStorage id base) n w =
      (Ret (match fst (tree_create cwd t base n) with Ok _ => Ok (SFile (res_key (FileStorage id base) n) 0) | Er k => Er k end), w') /\
    tree_ok (snd (tree_create cwd t base n)) /\ shows a at_ (snd (tree_create cwd t base n)) w'.
Proof. exact (create_agrees cwd t w id base n). Qed.
Print Assumptions C102_create.

(** If the process is killed between the calls that make the directories, the first
    of them exist, which is what the model says about interrupted calls. *)
Theorem C102_interrupted cwd t w base u (a := is_absolute base) (at_ := if a then [] else cwd) :
  tree_ok t -> t at_ = Some NDir -> shows a at_ t w ->
  no_parent base -> t (at_ ++ names_of base) = None -> ~ ends_with_dot base ->
  In u (mkdirs_seen cwd (Datatypes.S (List.length (p_segs (path_of base)))) t (path_of base)) ->
  exists n w', create_dir_all (key_of base) (set_faults [FCrash n] w) = (Crash, w') /\ tree_ok u /\ shows a at_ u w'.
Proof. exact (seen_agrees cwd t w base u). Qed.
Print Assumptions C102_interrupted.

(** Not so for the path of a directory that ends with [.] and does not exist: nothing
    can be created there. *)
Theorem C102_dot_refuted cwd t base n (at_ := if is_absolute base then [] else cwd) :
  t at_ = Some NDir -> no_parent base -> ends_with_dot base -> t (at_ ++ names_of base) = None ->
  exists k, fst (tree_create cwd t base n) = Er k /\ snd (tree_create cwd t base n) (at_ ++ names_of base) = None.
Proof. exact (dot_fails cwd t base n). Qed.
Print Assumptions C102_dot_refuted.

(** Nor for names that end with a slash or [.]: these cannot be created. *)
Theorem C102_slash_refuted cwd t base n : is_absolute n = false -> base <> ""%string -> ~ ends_with_name n ->
  exists k, fst (tree_create cwd t base n) = Er k.
Proof. exact (slash_fails cwd t base n). Qed.
Print Assumptions C102_slash_refuted.

(** A relative name without [..] leads to a place below the directory of the storage,
    whatever the path of the directory looks like. *)
Theorem C102_below cwd t base n l : is_absolute n = false -> base <> ""%string -> no_parent n ->
  resolve cwd t (path_of (path_join base n)) = Ok l ->
  exists lb, resolve cwd t (path_of base) = Ok lb /\ t lb = Some NDir /\ l = lb ++ names_of n.
Proof. exact (confined cwd t base n l). Qed.
Print Assumptions C102_below.

(** With [..] it leads out of the directory, and other files are truncated. *)
Theorem C102_below_refuted cwd t base n l : tree_ok t -> base <> ""%string ->
  resolve cwd t (path_of base) = Ok l -> t l = Some NDir -> valid_name n -> n <> ".."%string -> dir_at t (removelast l ++ [n]) = false ->
  tree_create cwd t base ("../" ++ n) = (Ok tt, tset (removelast l ++ [n]) (NFile []) t).
Proof.
  intros T Nb R D V N F. exact (create_at cwd t base ("../" ++ n) l _ Nb R D (resolve_up cwd t base n l T Nb R D V N) F).
Qed.
Print Assumptions C102_below_refuted.

(** With [..] there are two names for one file, which are different entries of a
    memory storage. *)
Theorem C102_alias_refuted cwd t base s n l : tree_ok t -> base <> ""%string ->
  resolve cwd t (path_of base) = Ok l -> t (l ++ [s]) = Some NDir ->
  valid_name s -> s <> ".."%string -> valid_name n -> n <> ".."%string ->
  resolve cwd t (path_of (path_join base (s ++ "/../" ++ n))) = resolve cwd t (path_of (path_join base n)) /\
  components (path_join base (s ++ "/../" ++ n)) <> components (path_join base n).
Proof.
  intros T Nb R Ds Vs Ns V N. destruct (resolve_over cwd t base s n l T Nb R Ds Vs Ns V N) as (A & B). split; [congruence|].
  assert (H1 := not_absolute_app s ("/../" ++ n) Vs). assert (H2 := not_absolute n (proj1 V)).
  rewrite (components_key _ _) by (rewrite !leads_join by assumption; reflexivity). rewrite !key_join_relative by assumption.
  intros E. apply (f_equal snd) in E. cbn [snd] in E. apply app_inv_head in E. unfold key_of in E. cbn [snd] in E.
  rewrite split_over, (split_no_slash n (proj1 V)) in E by (exact (proj1 Vs) || exact (proj1 V)). cbn [filter] in E.
  rewrite (real_valid s Vs), (real_valid n V) in E. discriminate E.
Qed.
Print Assumptions C102_alias_refuted.

(** Memory storages: two names are one entry, also with [..], if and only if they have
    the same components after those of the path of the storage. *)
Theorem C102_memory id base n m : is_absolute n = false -> is_absolute m = false -> base <> ""%string ->
  (components (path_join base n) = components (path_join base m) <->
   res_key (MemStorage id base) n = res_key (MemStorage id base) m).
Proof.
  intros Hn Hm Nb. apply components_key. rewrite !leads_join by assumption. reflexivity.
Qed.
Print Assumptions C102_memory.

(** Not so if the path of the storage is empty: a [.] at the beginning is kept then. *)
Theorem C102_memory_refuted id n : is_absolute n = false -> leads n = [] ->
  components (path_join "" ("./" ++ n)) <> components (path_join "" n) /\
  res_key (MemStorage id "") ("./" ++ n) = res_key (MemStorage id "") n.
Proof.
  intros Hn L. assert (J : path_join "" n = n) by (unfold path_join; rewrite Hn; reflexivity). split.
  - rewrite J. change (path_join "" ("./" ++ n)) with ("./" ++ n)%string. rewrite !components_leads, L. change (leads ("./" ++ n)) with [CurDir].
    cbn [app]. intros E. destruct (snd (key_of n)) as [|x r]; [discriminate E|]. cbn in E. injection E as E _.
    unfold component_of in E. destruct (String.eqb x ".."); discriminate E.
  - unfold res_key, res_path. cbn [st_base]. rewrite J. change (path_join "" ("./" ++ n)) with ("./" ++ n)%string. exact (key_leading n Hn).
Qed.
Print Assumptions C102_memory_refuted.

(** ** Examples *)
(** /d/s/ and /d/x with one byte; the working directory is /d. *)
Definition px_tree : tree := tset ["d"; "x"]%string (NFile [7]) (tset ["d"; "s"]%string NDir (tset ["d"]%string NDir (tset [] NDir (fun _ => None)))).
Lemma px_ok : tree_ok px_tree.
Proof.
  assert (E : tree_ok (tset [] NDir (fun _ => None))).
  { split; [reflexivity|]. intros l s N. unfold tset in N. destruct l; cbn in N; congruence. }
  unfold px_tree. apply (tset_ok _ ["d"]%string "x" (NFile [7])); [|reflexivity|right; reflexivity].
  apply (tset_ok _ ["d"]%string "s" NDir); [|reflexivity|left; reflexivity]. apply (tset_ok _ [] "d" NDir); [exact E|reflexivity|left; reflexivity].
Qed.
(** The same as a world that uses absolute paths, and one that uses relative paths. *)
Definition px_world (a : bool) (at_ : list string) : world :=
  mkWorld (fun k => if Bool.eqb (fst k) a then match px_tree (at_ ++ snd k) with Some (NFile c) => Some c | _ => None end else None)
    (fun k => Bool.eqb (fst k) a && dir_at px_tree (at_ ++ snd k)) (fun _ _ => None) (fun _ _ => None) (fun _ _ => None) 0 [].
Lemma px_shows a at_ : px_tree at_ = Some NDir -> shows a at_ px_tree (px_world a at_).
Proof.
  intros D l. unfold is_dir. cbn [px_world w_files w_dirs fst snd]. rewrite Bool.eqb_reflx. split; [reflexivity|]. cbn [andb].
  destruct l as [|x l]; [|apply orb_false_r]. unfold dir_at. rewrite app_nil_r, D. reflexivity.
Qed.
Example C102_example :
  no_parent "/d//e/./f/" /\ no_parent "y/z" /\ ends_with_name "y/z" /\ ends_with_dot "/e/." /\
  (* existing and missing resources, absolute and relative *)
  tree_exists ["d"]%string px_tree "/d/" "x" = true /\ tree_exists ["d"]%string px_tree "./." "x" = true /\ tree_exists ["d"]%string px_tree "" "x" = true /\
  tree_read ["d"]%string px_tree "/d" "x" = Ok [7] /\ tree_read ["d"]%string px_tree "/d" "s" = Er KOther /\ tree_read ["d"]%string px_tree "/d" "x/y" = Er KNotFound /\
  fst (exists_ (FileStorage 0 "/d/") "x" (px_world true [])) = Ret true /\ fst (exists_ (FileStorage 0 ".") "x" (px_world false ["d"]%string)) = Ret true /\
  (* directories are made *)
  (let (r, t) := tree_create ["d"]%string px_tree "/d//e/./f/" "y" in
   r = Ok tt /\ t ["d"; "e"]%string = Some NDir /\ t ["d"; "e"; "f"]%string = Some NDir /\ t ["d"; "e"; "f"; "y"]%string = Some (NFile [])) /\
  map (fun u => (dir_at u ["d"; "e"], dir_at u ["d"; "e"; "f"])%string) (mkdirs_seen [] 9 px_tree (path_of "/d//e/./f/")) = [(false, false); (false, false); (true, false); (true, true)] /\
  (let (r, t) := tree_create ["d"]%string px_tree "e" "y" in r = Ok tt /\ t ["d"; "e"; "y"]%string = Some (NFile [])) /\
  fst (tree_create ["d"]%string px_tree "/d/x/e" "y") = Er KOther /\ fst (tree_create ["d"]%string px_tree "/d" "z/y") = Er KNotFound /\
  (* [.] at the end, a slash after the name *)
  (let (r, t) := tree_create ["d"]%string px_tree "/d/e/f/." "y" in r = Er KNotFound /\ t ["d"; "e"]%string = Some NDir /\ t ["d"; "e"; "f"]%string = None) /\
  fst (tree_create ["d"]%string px_tree "/d/s/." "y") = Ok tt /\
  fst (tree_create ["d"]%string px_tree "/d" "x/") = Er KOther /\ fst (tree_create ["d"]%string px_tree "/d" "s/.") = Er KOther /\
  (* [..] *)
  (let (r, t) := tree_create ["d"]%string px_tree "s" "../x" in r = Ok tt /\ t ["d"; "x"]%string = Some (NFile [])) /\
  resolve [] px_tree (path_of "/../d/s/../x") = Ok ["d"; "x"]%string /\ resolve [] px_tree (path_of "/d/x/../x") = Er KOther /\
  components "/d/./s/../x" = [RootDir; Normal "d"; Normal "s"; ParentDir; Normal "x"] /\ components "./a/./b" = [CurDir; Normal "a"; Normal "b"].
Proof.
  assert (NP : forall s, existsb (String.eqb "..") (split_slash s) = false -> no_parent s).
  { intros s H I. assert (X : existsb (String.eqb "..") (split_slash s) = true) by (apply existsb_exists; exists ".."%string; split; [exact I|reflexivity]). congruence. }
  split; [apply NP; reflexivity|]. split; [apply NP; reflexivity|]. split; [exists ["y"%string], "z"%string; split; reflexivity|].
  split; [exists [""; "e"]%string, 0%nat; reflexivity|]. vm_compute. repeat split.
Qed.
