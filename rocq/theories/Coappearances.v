(** tests/coappearances_test.rs evaluated in the model, on the files of
    karenina.archive (which were not written by flatdata-rs).  These are tests of
    the model, not proofs of properties.  The results are computed when the file is compiled (a wrong one
    stops the build); the kernel is not asked to compute them again. *)
From Verif Require Import Base Codec Structs Views Storage Writers MultiViews Archives ArchiveSpec BuilderSpec Conformance Karenina.
From Verif Require Import BaseFacts StructsSpec StructsFacts StorageSpec WritersSpec MultiSpec BuilderFacts PropsBuilder.
From Coq Require Import String.
Local Open Scope string_scope.
Local Open Scope list_scope.
Local Open Scope Z_scope.

Definition home : string := "tests/coappearances/karenina.archive".
Fixpoint lookup {V} (k : key) (l : list (key * V)) : option V :=
  match l with [] => None | (k', v) :: r => if key_eqb k k' then Some v else lookup k r end.
Definition file_table : list (key * list Z) :=
  map (fun f => (key_of (path_join home (fst f)), bytes (snd f))) karenina_files.
(** The checked out repository, and an empty directory for the copy. *)
Definition repo : world :=
  set_files (fun k => lookup k file_table)
  (set_dirs (fun k => existsb (fun d => key_eqb k (key_of d)) ["tests"; "tests/coappearances"; home; path_join home "statistics"; "/tmp"; "/tmp/copy"])
   empty_world).

(** The opened archive, or [d]. *)
Definition opened_or {A} (x : outcome (result archive rs_error)) (d : A) (f : archive -> A) : A :=
  match x with Ret (Ok g) => f g | _ => d end.
Definition vec_of (g : archive) (k : nat) : view := match get_vector g k with Some v => v | None => whole [] end.
Definition mul_of (g : archive) (k : nat) : mav := match get_multi g k with Some v => v | None => mkMav (whole []) (whole []) end.
Definition raw_of (g : archive) (k : nat) : list Z := match get_raw g k with Some v => sl_bytes v | None => [] end.
Definition struct_of (g : archive) (k : nat) : list Z := match get_struct g k with Some v => v | None => [] end.

(** substring, coappearances_test.rs:14-18 *)
Fixpoint until_zero (l : list Z) : list Z :=
  match l with [] => [] | x :: r => if x =? 0 then [] else x :: until_zero r end.
Definition substring (strings : list Z) (start : Z) : list Z := until_zero (skipn (Z.to_nat start) strings).

Section Env.
Variables (b : build) (e : endian).

(** All fields of element [i]. *)
Definition fields_at (s : sdesc) (v : view) (i : Z) : list Z :=
  match obind (av_at b s v i) (get_all b e s) with Ret l => l | _ => [] end.
Definition field_at (s : sdesc) (v : view) (i : Z) (k : nat) : Z := nth k (fields_at s v i) (-1).
(** All elements through the iterator. *)
Definition all_fields (s : sdesc) (v : view) : list (list Z) :=
  match obind (av_take b s (Z.to_nat (av_len s v)) v) (map_outcome (get_all b e s)) with Ret l => l | _ => [] end.
(** All items of bucket [i]. *)
Definition bucket_of (g : archive) (i : Z) : list (nat * list Z) :=
  match obind (mav_at b e 4 32 (mul_of g 0) i) (fun d => obind (item_collect s_VerticesData d) (map_outcome (get_item b e s_VerticesData))) with
  | Ret l => l
  | _ => []
  end.

(** validate_chapters, coappearances_test.rs:71-83 *)
Definition chapters_of (g : archive) (i : Z) : list (list Z) :=
  let from := field_at s_Coappearance (vec_of g 1) i 3 in
  let to := field_at s_Coappearance (vec_of g 1) (i + 1) 3 in
  firstn (Z.to_nat (to - from)) (skipn (Z.to_nat from) (all_fields s_Chapter (vec_of g 2))).

(** read_and_validate_coappearances, coappearances_test.rs:20-137 *)
Definition validate (g : archive) : list bool :=
  let vertices := vec_of g 0 in
  let edges := vec_of g 1 in
  let strings := raw_of g 0 in
  let is x s := eqs x (str s) in
  let name i := substring strings (field_at s_Character vertices i 0) in
  let meta := match get_all b e s_Meta (struct_of g 0) with Ret l => l | _ => [] end in
  let relation i kind to :=
    match bucket_of g i with
    | [(2%nat, [k; t])] => is (substring strings k) kind && is (name t) to
    | _ => false
    end in
  [ av_len s_Character vertices =? 138; av_len s_Coappearance edges =? 494;
    utf8_ok strings;
    is (substring strings (nth 0 meta (-1))) "Anna Karenina (Анна Каренина)";
    is (substring strings (nth 1 meta (-1))) "Leo Tolstoy (Лев Николаевич Толстой)";
    av_len s_Chapter (vec_of g 2) =? fold_right (fun f n => nth 2 f (-1) + n) 0 (all_fields s_Coappearance edges);
    is (name 0) "Annushka"; is (name 3) "Anna Arkadyevna Karenina";
    is (name (field_at s_Coappearance edges 0 0)) "Annushka";
    is (name (field_at s_Coappearance edges 0 1)) "Anna Arkadyevna Karenina";
    forallb (fun p => eqs (fst p) (snd p))
      (combine (chapters_of g 0) [[1; 29]; [2; 27]; [3; 15]; [3; 16]; [6; 19]; [7; 25]; [7; 27]; [7; 29]]);
    Nat.eqb (List.length (chapters_of g 0)) 8;
    match chapters_of g 1 with [[6; 19]] => true | _ => false end;
    match chapters_of g 492 with [[7; 25]] => true | _ => false end;
    is_ret Z.eqb (mav_len b 4 32 (mul_of g 0)) 138;
    relation 0 "maid" "Anna Arkadyevna Karenina";
    relation 1 "housekeeper" "Konstantin Dmitrievitch Levin";
    relation 137 "gambling friend" "Count Alexey Kirillovitch Vronsky" ].

(** read_and_validate_calculate_data_subarchive, coappearances_test.rs:356-381 *)
Definition degrees : list Z :=
  [4; 11; 25; 43; 3; 3; 4; 7; 2; 1; 1; 1; 12; 3; 1; 4; 8; 2; 6; 40; 2; 5; 2; 1; 1; 6; 3; 16;
   3; 5; 5; 1; 1; 1; 3; 3; 13; 44; 27; 5; 3; 10; 2; 11; 4; 6; 71; 7; 2; 5; 7; 6; 2; 11; 3; 1;
   1; 2; 3; 4; 6; 2; 2; 6; 5; 2; 3; 3; 1; 3; 1; 6; 3; 5; 3; 7; 1; 7; 4; 3; 2; 3; 1; 5; 1; 1;
   6; 10; 7; 6; 3; 1; 27; 18; 8; 3; 3; 2; 4; 2; 1; 10; 3; 4; 2; 9; 3; 6; 4; 1; 6; 50; 1; 15;
   2; 14; 1; 7; 1; 12; 15; 3; 3; 2; 1; 6; 15; 4; 7; 47; 6; 14; 3; 2; 1; 7; 10; 13].
Definition validate_statistics (g : archive) : list bool :=
  [ is_ret eqs (get_all b e s_Invariants (struct_of g 0)) [71; 46; 1; 9; 1];
    eqs (map (fun f => nth 0 f (-1)) (all_fields s_Degree (vec_of g 0))) degrees ].

(** copy_coappearances_archive, coappearances_test.rs:159-276: fill_from sets all
    fields; the statistics of 301-330 as well, if asked for. *)
Definition sets_of (l : list Z) : list (nat * Z) := combine (seq 0 (List.length l)) l.
Definition copy_struct (s : sdesc) (m : list Z) : list Z :=
  match fill_from b e s (sb_new s) m with Ret d => d | _ => [] end.
Definition copy_vector (s : sdesc) (v : view) : view :=
  match obind (vec_with_len b s 0) (fun d =>
        obind (vec_run b e s (map (fun l => VGrow (sets_of l)) (all_fields s v)) d) (vec_as_view b)) with
  | Ret w => w
  | _ => whole []
  end.
Definition copy_ops (g : archive) (stats : bool) : list bop :=
  [BStruct 0 (copy_struct s_Meta (struct_of g 0)); BVecStart 0]
  ++ map (fun l => BVecGrow 0 (sets_of l)) (all_fields s_Character (vec_of g 0))
  ++ [BVecClose 0; BVector 1 (copy_vector s_Coappearance (vec_of g 1)); BMulStart 0]
  ++ map (fun i => BMulGrow 0 (map (fun it => (fst it, sets_of (snd it))) (bucket_of g (Z.of_nat i)))) (seq 0 138)
  ++ [BMulClose 0; BVector 2 (copy_vector s_Chapter (vec_of g 2)); BRaw 0 (raw_of g 0)]
  ++ (if stats then
        [BSubNew 0; BSub 0 (BStruct 0 (match run_sets b e s_Invariants [(0%nat, 71); (1%nat, 46); (2%nat, 1); (3%nat, 9); (4%nat, 1)] (sb_new s_Invariants) with Ret d => d | _ => [] end));
         BSub 0 (BVecStart 0)]
        ++ map (fun d => BSub 0 (BVecGrow 0 [(0%nat, d)])) degrees ++ [BSub 0 (BVecClose 0)]
      else []).
Definition copy (stats : bool) : bool * world :=
  opened_or (fresh_open b e Graph home repo) (false, repo) (fun g =>
    match builder_new b e Graph (FileStorage 0 "/tmp/copy") repo with
    | (Ret (Ok st), w1) =>
        match brun b e FLUSH_LIMIT Graph (copy_ops g stats) (new_bstate st) w1 with
        | (Ret (flags, _), w2) => (forallb (fun x => x) flags, w2)
        | (_, w2) => (false, w2)
        end
    | (_, w1) => (false, w1)
    end).
(** compare_resource for every file of the original. *)
Definition same_files (names : list string) (w : world) : bool :=
  forallb (fun n =>
    match w_files w (key_of (path_join "/tmp/copy" n)), w_files w (key_of (path_join home n)) with
    | Some x, Some y => eqs x y
    | _, _ => false
    end) names.
End Env.

Definition top_names : list string := filter (fun n => match index 0 "/" n with Some _ => false | None => true end) (map fst karenina_files).
Definition all (l : list bool) : bool := forallb (fun x => x) l.

Definition read_and_validate_coappearances_result : bool := Eval vm_compute in
  everywhere (fun b e => opened_or (fresh_open b e Graph home repo) false (fun g => all (validate b e g))).
Example read_and_validate_coappearances : read_and_validate_coappearances_result = true.
Proof. reflexivity. Qed.
Definition read_and_validate_calculate_data_subarchive_result : bool := Eval vm_compute in
  everywhere (fun b e => opened_or (fresh_open b e Statistics (path_join home "statistics") repo) false (fun g => all (validate_statistics b e g))
    && opened_or (fresh_open b e Graph home repo) false (fun g => match get_sub g 0 with Some s => all (validate_statistics b e s) | None => false end)).
Example read_and_validate_calculate_data_subarchive : read_and_validate_calculate_data_subarchive_result = true.
Proof. reflexivity. Qed.

(** read_write_coappearances, read_non_existent_statistics_subarchive,
    coappearances_test.rs:278-296: all files are the same byte for byte, there is
    no sub-archive. *)
Definition copy_test (b : build) (e : endian) : bool :=
  let '(ok, w) := copy b e false in
  ok && same_files top_names w
  && opened_or (fresh_open b e Graph "/tmp/copy" w) false (fun g => all (validate b e g) && match get_sub g 0 with None => true | Some _ => false end).
(** read_write_statistics_subarchive, coappearances_test.rs:298-354 *)
Definition copy_statistics_test (b : build) (e : endian) : bool :=
  let '(ok, w) := copy b e true in
  ok && same_files (map fst karenina_files) w
  && opened_or (fresh_open b e Graph "/tmp/copy" w) false (fun g =>
       match get_sub g 0 with Some s => all (validate_statistics b e s) | None => false end).
Definition read_write_coappearances_result : bool := Eval vm_compute in
  everywhere copy_test.
Example read_write_coappearances : read_write_coappearances_result = true.
Proof. reflexivity. Qed.
Definition read_write_statistics_subarchive_result : bool := Eval vm_compute in
  everywhere copy_statistics_test.
Example read_write_statistics_subarchive : read_write_statistics_subarchive_result = true.
Proof. reflexivity. Qed.

(** The theorems about archives and builders apply to this archive. *)
Lemma schema_ok_dec st l :
  utf8_ok l && forallb (fun x => (0 <=? x) && (x <? 256)) l && (len l <=? isize_max) && negb (len l =? 0) = true -> schema_ok st l.
Proof.
  intros H. apply andb_prop in H as [H H4]. apply andb_prop in H as [H H3]. apply andb_prop in H as [H1 H2].
  split; [exact H1|]. split.
  - apply Forall_forall. intros x Hx. rewrite forallb_forall in H2. specialize (H2 x Hx). unfold is_byte. lia.
  - split; [lia|]. intros _ ->. discriminate H4.
Qed.
Ltac decide_schema := apply schema_ok_dec; vm_compute; reflexivity.
Lemma Statistics_wf file : wf_archive file Statistics.
Proof.
  apply wf_eq. cbn [ad_name ad_schema ad_structs ad_vectors ad_multis ad_raws ad_subs Statistics].
  split; [name_solve|]. split; [decide_schema|]. split; [nodup_solve|].
  split; [repeat (constructor; [split; [name_solve|decide_schema]|]); constructor|].
  split; [repeat (constructor; [split; [split; [name_solve|decide_schema]|apply wf_struct_dec; reflexivity]|]); constructor|].
  split; [constructor|]. split; [constructor|]. split; [constructor|constructor].
Qed.
Example Graph_wf file : wf_archive file Graph.
Proof.
  apply wf_eq. cbn [ad_name ad_schema ad_structs ad_vectors ad_multis ad_raws ad_subs Graph].
  split; [name_solve|]. split; [decide_schema|]. split; [nodup_solve|].
  split; [repeat (constructor; [split; [name_solve|decide_schema]|]); constructor|].
  split; [repeat (constructor; [split; [split; [name_solve|decide_schema]|apply wf_struct_dec; reflexivity]|]); constructor|].
  split.
  { constructor; [|constructor]. split; [name_solve|]. split; [reflexivity|].
    split; [split; [decide_schema|vm_compute; discriminate]|].
    split; [apply wf_struct_dec; reflexivity|]. split; [|vm_compute; discriminate].
    split; [|nodup_solve]. repeat (constructor; [split; [unfold is_byte; simpl; lia|apply wf_struct_dec; reflexivity]|]). constructor. }
  split; [repeat (constructor; [split; [name_solve|decide_schema]|]); constructor|].
  split; [nodup_solve|]. constructor; [split; [name_solve|apply Statistics_wf]|constructor].
Qed.
