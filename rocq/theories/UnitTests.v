(** The other unit tests of the repository, evaluated in the model for all builds
    and byte orders.  These are tests of the model, not proofs of properties. *)
From Verif Require Import Base Codec Structs Views Storage Writers MultiViews Conformance.
From Coq Require Import String.
Local Open Scope string_scope.
Local Open Scope list_scope.
Local Open Scope Z_scope.

(** [forall] over builds and byte orders by computation. *)
Ltac run := intros b e; destruct b, e; vm_compute; repeat split.

(** * src/arrayview.rs:270-421 *)
Definition t_Value := mkStruct 4 [mkField U32 0 32].
Definition t_Point := mkStruct 4 [mkField U32 0 16; mkField U32 16 16].
Definition nums (n : nat) : list Z := map Z.of_nat (seq 0 n).
(** create_values, arrayview.rs:332-339 *)
Definition create_values (b : build) (e : endian) (n : nat) : outcome (list Z) :=
  d <- vec_with_len b t_Value (Z.of_nat n) ;;
  vec_run b e t_Value (map (fun i => VSet i [(0%nat, i)]) (nums n)) d.
Definition view_of_values (b : build) (e : endian) (n : nat) : outcome view :=
  d <- create_values b e n ;; vec_as_view b d.
(** Calls of next ([false]) or next_back ([true]); the values of the elements. *)
Definition iterate (b : build) (e : endian) (calls : list bool) (v : view) : outcome (list (option (list Z))) :=
  x <- av_iter_run b t_Value calls v ;;
  map_outcome (fun o => match o with Some m => l <- get_all b e t_Value m ;; Ret (Some l) | None => Ret None end) (fst x).

Example arrayview_test : forall b e,
  let view := mkSlice (repeat 255 4 ++ zeros (4 * 10 + 8)) 44 in
  av_len t_Point view = 11 /\
  obind (av_take b t_Point 20 view) (map_outcome (get_all b e t_Point)) = Ret ([65535; 65535] :: repeat [0; 0] 10) /\
  obind (av_at b t_Point view 0) (get_all b e t_Point) = Ret [65535; 65535].
Proof. run. Qed.
Example arrayview_from : forall b e, omap (av_len t_Value) (view_of_values b e 10) = Ret 10.
Proof. run. Qed.
Example arrayview_reverse : forall b e,
  obind (view_of_values b e 10) (iterate b e (repeat true 10)) = Ret (map (fun i => Some [i]) [9; 8; 7; 6; 5; 4; 3; 2; 1; 0]).
Proof. run. Qed.
Example arrayview_fused : forall b e,
  obind (view_of_values b e 100) (iterate b e (repeat false 102)) = Ret (map (fun i => Some [i]) (nums 100) ++ [None; None]) /\
  obind (view_of_values b e 100) (iterate b e (repeat true 102)) = Ret (map (fun i => Some [i]) (rev (nums 100)) ++ [None; None]).
Proof. run. Qed.
Example arrayview_slice : forall b e,
  let try lo hi := obind (view_of_values b e 10) (fun v => s <- av_slice b t_Value v lo hi ;; x <- iterate b e [false] s ;; Ret (av_len t_Value s, x)) in
  try (Included 2) Unbounded = Ret (8, [Some [2]]) /\
  try Unbounded (Excluded 8) = Ret (8, [Some [0]]) /\
  try (Included 2) (Excluded 8) = Ret (6, [Some [2]]).
Proof. run. Qed.
Example arrayview_debug : forall b e,
  obind (view_of_values b e 100) (av_debug b e t_Value) = Ret (100, map (fun i => [i]) (nums 10), true) /\
  obind (view_of_values b e 100) (fun v => x <- av_iter_run b t_Value (repeat false 99) v ;; av_debug b e t_Value (snd x)) = Ret (1, [[99]], false).
Proof. run. Qed.

(** * src/vector.rs:355-451 *)
Definition t_A := t_Point.
Definition elements (b : build) (e : endian) (d : list Z) : outcome (list (list Z)) :=
  n <- vec_len b t_A d ;;
  map_outcome (fun i => m <- vec_at b t_A d i ;; get_all b e t_A m) (nums (Z.to_nat n)).
Example test_vector_new : forall (b : build) (e : endian), obind (vec_with_len b t_A 0) (vec_len b t_A) = Ret 0.
Proof. run. Qed.
Example test_vector_index : forall b e,
  obind (vec_with_len b t_A 2) (fun d =>
  obind (vec_run b e t_A [VSet 0 [(0%nat, 1); (1%nat, 2)]; VSet 1 [(0%nat, 3); (1%nat, 4)]] d) (elements b e)) = Ret [[1; 2]; [3; 4]].
Proof. run. Qed.
Example test_vector_as_view : forall b e,
  obind (vec_with_len b t_A 1) (fun d =>
  obind (vec_run b e t_A [VSet 0 [(0%nat, 1); (1%nat, 2)]] d) (fun d =>
  obind (vec_as_view b d) (fun v => obind (av_at b t_A v 0) (get_all b e t_A)))) = Ret [1; 2].
Proof. run. Qed.
Example test_vector_grow : forall b e,
  let after ops := obind (vec_with_len b t_A 1) (fun d => obind (vec_run b e t_A ops d) (elements b e)) in
  after [VSet 0 [(0%nat, 1); (1%nat, 2)]; VGrow [(0%nat, 3); (1%nat, 4)]] = Ret [[1; 2]; [3; 4]] /\
  after [VSet 0 [(0%nat, 1); (1%nat, 2)]; VGrow [(0%nat, 3); (1%nat, 4)]; VGrow []] = Ret [[1; 2]; [3; 4]; [0; 0]].
Proof. run. Qed.

(** * src/structbuf.rs:112-152, src/archive.rs:732-816 *)
Example test_setter_getter : forall b e,
  let after ops := obind (run_sets b e t_A ops (sb_new t_A)) (fun d => get_all b e t_A (sb_get d)) in
  struct_eq b e t_A (sb_get (sb_new t_A)) (sb_get (sb_new t_A)) = Ret true /\
  after [(0%nat, 1); (1%nat, 2)] = Ret [1; 2] /\
  after [(0%nat, 1); (1%nat, 2); (0%nat, 3)] = Ret [3; 2] /\
  after [(0%nat, 1); (1%nat, 2); (0%nat, 3); (1%nat, 4)] = Ret [3; 4].
Proof. run. Qed.
Definition enum_test (t : prim) (x y : Z) : bool :=
  let f := mkField t 0 2 in
  let s := mkStruct 1 [f] in
  everywhere (fun b e =>
    is_ret Z.eqb (get_enum b e [x; y] f (sb_new s)) x
    && is_ret Z.eqb (obind (set_enum b e s f y (sb_new s)) (get_enum b e [x; y] f)) y).
Example enum_tests :
  forallb (fun r => let '(t, x, y) := r in enum_test t x y)
    [(U8, 0, 1); (U8, 0, 2); (U16, 0, 1); (U16, 0, 2); (U32, 0, 1); (U32, 0, 2); (U64, 0, 1); (U64, 0, 2);
     (I16, 0, 1); (I16, 0, -1); (I32, 0, 1); (I32, 0, -1); (I64, 0, 1); (I64, 0, -1)] = true.
Proof. vm_compute. reflexivity. Qed.

(** * src/multivector.rs:222-331 *)
Definition root := MemStorage 0 "/root/resources".
Definition w0 : world := set_next 1 empty_world.
Definition v_A : vdesc := [(0, t_A)].
(** Creates a multivector, adds the buckets, closes it. *)
Definition make_multi (b : build) (e : endian) (ts : vdesc) (buckets : list (list (nat * list (nat * Z)))) : outcome mav * world :=
  (let! r := create_multi_vector b e root "multivector" (str "Some schema") in
   match r with
   | Er _ => mpanic
   | Ok mv =>
       let! x := mv_run b e FLUSH_LIMIT 4 32 ts (map MGrow buckets) mv in
       let! r := mv_close b e FLUSH_LIMIT 4 32 (snd x) in
       match r with Ok (i, d) => mret (mkMav i d) | Er _ => mpanic end
   end) w0.
Definition bucket (b : build) (e : endian) (ts : vdesc) (v : mav) (i : Z) : outcome (list (nat * list Z)) :=
  d <- mav_at b e 4 32 v i ;; l <- item_collect ts d ;; map_outcome (get_item b e ts) l.
(** Reads index and data again. *)
Definition read_multi (b : build) (e : endian) : M mav :=
  let! i := read b e root "multivector_index" (str "index(Some schema)") in
  let! d := read b e root "multivector" (str "Some schema") in
  match i, d with Ok i, Ok d => mret (mkMav i d) | _, _ => mpanic end.
Example test_multi_vector : forall b e,
  let made := make_multi b e v_A [[(0%nat, [(0%nat, 1); (1%nat, 2)]); (0%nat, [(0%nat, 3); (1%nat, 4)])]] in
  let check v := obind (mav_len b 4 32 v) (fun n => obind (bucket b e v_A v 0) (fun l => Ret (n, l))) in
  obind (fst made) check = Ret (1, [(0%nat, [1; 2]); (0%nat, [3; 4])]) /\
  obind (fst (read_multi b e (snd made))) check = Ret (1, [(0%nat, [1; 2]); (0%nat, [3; 4])]).
Proof. run. Qed.

(** * src/multiarrayview.rs:280-432; both fields of Point have the same bits *)
Definition m_Point := mkStruct 4 [mkField U32 0 24; mkField U32 0 24].
Definition m_Variant : vdesc := [(0, mkStruct 3 [mkField U32 0 24]); (1, m_Point)].
Definition create_view (b : build) (e : endian) (n : nat) : outcome mav :=
  let size := Z.of_nat n in
  fst (make_multi b e m_Variant
    (map (fun i => [(0%nat, [(0%nat, i)]); (1%nat, [(0%nat, i + size); (1%nat, i + 2 * size)])]) (nums n))).
Definition first_values (b : build) (e : endian) (l : list (option slice)) : outcome (list (option (nat * list Z))) :=
  map_outcome (fun o => match o with
    | Some d => x <- item_next m_Variant d ;;
                match fst x with Some i => r <- get_item b e m_Variant i ;; Ret (Some r) | None => Ret None end
    | None => Ret None end) l.
Example multiarrayview_slice : forall b e,
  let try lo hi := obind (create_view b e 10) (fun v =>
    s <- mav_slice b 4 32 v lo hi ;; n <- mav_len b 4 32 s ;; x <- mav_iter_run b e 4 32 [false] s ;; l <- first_values b e (fst x) ;; Ret (n, l)) in
  try Unbounded Unbounded = Ret (10, [Some (0%nat, [0])]) /\
  try (Included 2) Unbounded = Ret (8, [Some (0%nat, [2])]) /\
  try Unbounded (Excluded 8) = Ret (8, [Some (0%nat, [0])]) /\
  try (Included 2) (Excluded 8) = Ret (6, [Some (0%nat, [2])]).
Proof. run. Qed.
Example multiarrayview_reverse : forall b e,
  obind (create_view b e 10) (fun v => x <- mav_iter_run b e 4 32 (repeat true 10) v ;; first_values b e (fst x)) =
  Ret (map (fun i => Some (0%nat, [i])) [9; 8; 7; 6; 5; 4; 3; 2; 1; 0]).
Proof. run. Qed.
Example multiarrayview_debug : forall b e,
  obind (create_view b e 100) (mav_debug b e 4 32 m_Variant) =
  Ret (100, map (fun i => [(0%nat, [i]); (1%nat, [200 + i; 200 + i])]) (nums 10), true) /\
  obind (create_view b e 100) (fun v => bucket b e m_Variant v 5) = Ret [(0%nat, [5]); (1%nat, [205; 205])] /\
  obind (create_view b e 100) (fun v => x <- mav_iter_run b e 4 32 (repeat false 99) v ;; mav_debug b e 4 32 m_Variant (snd x)) =
  Ret (1, [[(0%nat, [99]); (1%nat, [299; 299])]], false).
Proof. run. Qed.
Definition given {A} (o : option A) : bool := match o with Some _ => true | None => false end.
Example multiarrayview_fused : forall b e,
  obind (create_view b e 100) (fun v => x <- mav_iter_run b e 4 32 (repeat false 102) v ;; Ret (map given (fst x))) =
  Ret (repeat true 100 ++ [false; false]) /\
  obind (create_view b e 100) (fun v => d <- mav_at b e 4 32 v 66 ;; x <- item_run m_Variant 4 d ;; Ret (map given (fst x))) =
  Ret [true; true; false; false].
Proof. run. Qed.

(** * src/storage.rs:412-462 *)
Definition leak (close : bool) (b : build) (e : endian) : outcome bool :=
  fst ((let st := MemStorage 0 "/root/extvec" in
        let! x := create_output_stream st "/root/extvec/blubb.schema" in
        match x with
        | Ok s =>
            let! _ := write_all s (str "myschema") in
            let! x := create_output_stream st "/root/extvec/blubb" in
            match x with
            | Ok s =>
                let! h := handle_try_new b e st "/root/extvec/blubb" (str "myschema") s in
                match h with
                | Ok h =>
                    let! r := (if close then handle_close b e h else mret (Ok (whole []), h)) in
                    let! _ := handle_drop false (snd r) in
                    mret (match fst r with Ok _ => true | Er _ => false end)
                | Er _ => mret false
                end
            | Er _ => mret false
            end
        | Er _ => mret false
        end) w0).
Example test_panick_on_leak : forall b e, leak false b e = Panic.
Proof. run. Qed.
Example test_not_panick_on_close : forall b e, leak true b e = Ret true.
Proof. run. Qed.
