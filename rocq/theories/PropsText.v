(** Properties C65, C66 and C67: the texts printed by Debug.
    Vocabulary (TextSpec.v): [names_ok] (names and types of the fields fit the
    struct), [sayable] (no undeclared enumerators), [plain] (no enums),
    [anames_ok], [all_plain] (the same for archives), [printable], [structs_fit]. *)
From Verif Require Import Base BaseFacts Codec CodecSpec CodecFacts Structs StructsSpec StructsFacts Views ViewsSpec ViewsFacts.
From Verif Require Import Storage PathFacts StorageSpec PropsStorage Writers WritersSpec MultiViews MultiSpec MultiViewFacts MultiViewUse.
From Verif Require Import Archives ArchiveSpec PropsArchive BuilderSpec PropsBuilder PropsViews UnitTests Text TextSpec TextFacts TextUse.
Local Open Scope string_scope.
Local Open Scope list_scope.
Local Open Scope Z_scope.

(** C65: the text of a struct shows all its fields.  There is none exactly if an
    enum field has an undeclared value: the getter makes an invalid enum. *)
Theorem C65_struct_text b e s n m : wf_struct s -> names_ok s n -> bytes_ok m -> s_size s <= len m ->
  (sayable n (decode s m) /\ struct_text b e s n m = Ret (record_text n (decode s m))) \/
  (~ sayable n (decode s m) /\ struct_text b e s n m = UB).
Proof. exact (struct_text_spec b e s n m). Qed.
Print Assumptions C65_struct_text.
(** Two texts are equal exactly if the structs are. *)
Theorem C65_text_eq b e s n m m' t t' : wf_struct s -> names_ok s n ->
  bytes_ok m -> s_size s <= len m -> bytes_ok m' -> s_size s <= len m' ->
  struct_text b e s n m = Ret t -> struct_text b e s n m' = Ret t' ->
  (t = t' <-> struct_eq b e s m m' = Ret true).
Proof.
  intros W N B L B' L' E E'. rewrite (struct_text_eq b e b e s n m m' t t' W N B L B' L' E E').
  destruct (struct_eq_decode b e s m m' W B B' L L') as (r & -> & H). rewrite <- H. split; congruence.
Qed.
Print Assumptions C65_text_eq.

Ltac ident_solve := split; [discriminate|repeat constructor].
Ltac shape_solve := cbn; first [exact I|reflexivity|split; [nodup_solve|]; split; [nodup_solve|]; repeat (constructor; [ident_solve|]); constructor].
Ltac names_solve := split; [ident_solve|]; cbn; repeat (constructor; [shape_solve|]); constructor.
Definition n_A := mkNames "A" [("x", AsNumber); ("y", AsNumber)].
Definition ex_mix := mkStruct 4 [mkField I32 0 12; mkField PBool 12 1; mkField U8 13 2].
Definition n_mix := mkNames "Mix" [("level", AsNumber); ("ready", AsBool); ("state", AsEnum [(0, "Idle"); (1, "Busy")])].
Lemma n_A_ok : names_ok t_Point n_A.
Proof. names_solve. Qed.
Example C65_example : forall b e,
  names_ok ex_mix n_mix /\ wf_struct ex_mix /\
  struct_text b e ex_mix n_mix [254; 63; 0; 0] = Ret "Mix { level: -2, ready: true, state: Busy }" /\
  struct_text b e ex_mix n_mix [254; 95; 0; 0] = UB /\
  struct_eq b e ex_mix [254; 63; 0; 0] [254; 63; 128; 1] = Ret true /\
  struct_text b e ex_mix n_mix [254; 63; 128; 1] = Ret "Mix { level: -2, ready: true, state: Busy }".
Proof.
  intros b e. split; [names_solve|]. split; [apply wf_struct_dec; reflexivity|]. destruct b, e; vm_compute; repeat split.
Qed.
(** The tests at archive.rs:738-812. *)
Example test_debug : forall b e, sb_text b e t_Point n_A (sb_new t_Point) = Ret "StructBuf { resource: A { x: 0, y: 0 } }".
Proof. run. Qed.
Definition n_enum (x y : Z) := mkNames "A" [("x", AsEnum [(x, "X"); (y, "Y")])].
Example test_enum : forall b e,
  Forall (fun r => let '(t, x, y) := r in let f := mkField t 0 2 in let s := mkStruct 1 [f] in
    sb_text b e s (n_enum x y) (sb_new s) = Ret "StructBuf { resource: A { x: X } }" /\
    obind (set_enum b e s f y (sb_new s)) (sb_text b e s (n_enum x y)) = Ret "StructBuf { resource: A { x: Y } }")
  [(U8, 0, 1); (U8, 0, 2); (U16, 0, 1); (U16, 0, 2); (U32, 0, 1); (U32, 0, 2); (U64, 0, 1); (U64, 0, 2);
   (I16, 0, 1); (I16, 0, -1); (I32, 0, 1); (I32, 0, -1); (I64, 0, 1); (I64, 0, -1)].
Proof. intros b e. destruct b, e; repeat constructor. Qed.

(** C66: texts of ArrayView ([title] is "ArrayView"), its iterator and Vector: they show
    the length and the first ten elements, and nothing else. *)
Theorem C66_view_text b e title s n v : wf_struct s -> names_ok s n -> slice_ok v -> let l := records s (sl_bytes v) in
  (Forall (sayable n) (firstn 10 l) /\ exists t, view_text b e title s n v = Ret t) \/
  (~ Forall (sayable n) (firstn 10 l) /\ view_text b e title s n v = UB).
Proof.
  intros W N V l. destruct (view_text_spec b e title s n v W N V) as [[A B]|H]; [left; split; [exact A|eexists; exact B]|right; exact H].
Qed.
Print Assumptions C66_view_text.
Theorem C66_view_text_eq b e title s n v v' t t' : wf_struct s -> names_ok s n -> slice_ok v -> slice_ok v' ->
  view_text b e title s n v = Ret t -> view_text b e title s n v' = Ret t' ->
  let l := records s (sl_bytes v) in let l' := records s (sl_bytes v') in
  (t = t' <-> List.length l = List.length l' /\ firstn 10 l = firstn 10 l').
Proof. exact (view_text_eq b e b e title s n v v' t t'). Qed.
Print Assumptions C66_view_text_eq.
(** A Vector with any history shows its elements, and not the padding. *)
Theorem C66_vector_text b e s nm n ops data : wf_struct s -> names_ok s nm -> 0 <= n -> n * s_size s + 8 <= isize_max -> vec_ops_ok s ops n ->
  obind (vec_with_len b s n) (vec_run b e s ops) = Ret data ->
  let l := fold_left (fun l o => list_step s o l) ops (repeat (zero_record s) (Z.to_nat n)) in
  (Forall (sayable nm) (firstn 10 l) /\ exists t, vec_text b e s nm data = Ret t) \/
  (~ Forall (sayable nm) (firstn 10 l) /\ vec_text b e s nm data = UB).
Proof.
  intros W N N0 L O R l. destruct (vec_text_view b e s nm n ops data W N0 L O R) as (v & Sv & Re & ->).
  unfold l. rewrite <- Re. exact (C66_view_text b e "Vector" s nm v W N Sv).
Qed.
Print Assumptions C66_vector_text.
Theorem C66_vector_text_eq b e s nm n ops data n' ops' data' t t' : wf_struct s -> names_ok s nm ->
  0 <= n -> n * s_size s + 8 <= isize_max -> vec_ops_ok s ops n -> 0 <= n' -> n' * s_size s + 8 <= isize_max -> vec_ops_ok s ops' n' ->
  obind (vec_with_len b s n) (vec_run b e s ops) = Ret data -> obind (vec_with_len b s n') (vec_run b e s ops') = Ret data' ->
  vec_text b e s nm data = Ret t -> vec_text b e s nm data' = Ret t' ->
  let l := fold_left (fun l o => list_step s o l) ops (repeat (zero_record s) (Z.to_nat n)) in
  let l' := fold_left (fun l o => list_step s o l) ops' (repeat (zero_record s) (Z.to_nat n')) in
  (t = t' <-> List.length l = List.length l' /\ firstn 10 l = firstn 10 l').
Proof.
  intros W N N0 L O N0' L' O' R R'. destruct (vec_text_view b e s nm n ops data W N0 L O R) as (v & Sv & Re & ->).
  destruct (vec_text_view b e s nm n' ops' data' W N0' L' O' R') as (v' & Sv' & Re' & ->).
  intros T T' l l'. unfold l, l'. rewrite <- Re, <- Re'. exact (C66_view_text_eq b e "Vector" s nm v v' t t' W N Sv Sv' T T').
Qed.
Print Assumptions C66_vector_text_eq.
Definition n_ex3 := mkNames "S" [("a", AsNumber); ("b", AsNumber)].
Example C66_vector_example : names_ok ex3 n_ex3 /\
  obind (obind (vec_with_len Debug ex3 1) (vec_run Debug LE ex3 [Views.VSet 0 [(1%nat, -3)]; VGrow [(0%nat, 7)]])) (vec_text Debug LE ex3 n_ex3) =
    Ret "Vector { len: 2, data: [S { a: 0, b: -3 }, S { a: 7, b: 0 }] }".
Proof. split; [names_solve|vm_compute; reflexivity]. Qed.
(** The same for multivectors. *)
Theorem C66_multi_text b e title size bits ts ns v l : wf_struct (index_struct size bits) -> wf_vdesc ts -> vnames_ok ts ns ->
  mav_shows ts size bits v l ->
  (Forall (Forall (item_sayable ns)) (firstn 10 l) /\ exists t, multi_text b e title size bits ts ns v = Ret t) \/
  (~ Forall (Forall (item_sayable ns)) (firstn 10 l) /\ multi_text b e title size bits ts ns v = UB).
Proof.
  intros Wi W V H. destruct (multi_text_spec b e title size bits ts ns v l Wi W V H) as [[A B]|X]; [left; split; [exact A|eexists; exact B]|right; exact X].
Qed.
Print Assumptions C66_multi_text.
Theorem C66_multi_text_eq b e title size bits ts ns v v' l l' t t' :
  wf_struct (index_struct size bits) -> wf_vdesc ts -> vnames_ok ts ns ->
  mav_shows ts size bits v l -> mav_shows ts size bits v' l' ->
  multi_text b e title size bits ts ns v = Ret t -> multi_text b e title size bits ts ns v' = Ret t' ->
  (t = t' <-> List.length l = List.length l' /\ firstn 10 l = firstn 10 l').
Proof. exact (multi_text_eq b e b e title size bits ts ns v v' l l' t t'). Qed.
Print Assumptions C66_multi_text_eq.
(** Iterators over one bucket show all items. *)
Theorem C66_bucket_text_eq b e ts ns d d' l l' t t' : wf_vdesc ts -> vnames_ok ts ns ->
  slice_ok d -> slice_ok d' -> bucket_of ts (sl_bytes d) l -> bucket_of ts (sl_bytes d') l' ->
  item_iter_text b e ts ns d = Ret t -> item_iter_text b e ts ns d' = Ret t' -> (t = t' <-> l = l').
Proof. exact (item_iter_text_eq b e b e ts ns d d' l l' t t'). Qed.
Print Assumptions C66_bucket_text_eq.

(** The test at arrayview.rs:389-420. *)
Definition n_Value := mkNames "Value" [("value", AsNumber)].
Definition value_preview : string :=
  " { len: 100, data: [Value { value: 0 }, Value { value: 1 }, Value { value: 2 }, Value { value: 3 }, Value { value: 4 }, Value { value: 5 }, " +++
  "Value { value: 6 }, Value { value: 7 }, Value { value: 8 }, Value { value: 9 }]... }".
Definition same_text (o : outcome string) (t : string) : bool := match o with Ret t' => String.eqb t' t | _ => false end.
Definition debug_views (b : build) (e : endian) : bool :=
  match view_of_values b e 100 with
  | Ret v =>
      same_text (av_text b e t_Value n_Value v) ("ArrayView" +++ value_preview) &&
      same_text (av_iter_text b e t_Value n_Value v) ("ArrayViewIter" +++ value_preview) &&
      same_text (obind (av_iter_run b t_Value (repeat false 99) v) (fun x => av_iter_text b e t_Value n_Value (snd x)))
        "ArrayViewIter { len: 1, data: [Value { value: 99 }] }"
  | _ => false
  end.
Definition debug_views_run : list bool := Eval vm_compute in [debug_views Debug LE; debug_views Debug BE; debug_views Release LE; debug_views Release BE].
Example C66_view_example : debug_views_run = [true; true; true; true] /\ names_ok t_Value n_Value.
Proof. split; [reflexivity|names_solve]. Qed.
(** The test at multiarrayview.rs:364-401. *)
Definition n_Variant := [n_Value; mkNames "Point" [("x", AsNumber); ("y", AsNumber)]].
Definition variant_preview : string :=
  " { len: 100, data: [(0, [Value { value: 0 }, Point { x: 200, y: 200 }]), (1, [Value { value: 1 }, Point { x: 201, y: 201 }]), " +++
  "(2, [Value { value: 2 }, Point { x: 202, y: 202 }]), (3, [Value { value: 3 }, Point { x: 203, y: 203 }]), " +++
  "(4, [Value { value: 4 }, Point { x: 204, y: 204 }]), (5, [Value { value: 5 }, Point { x: 205, y: 205 }]), " +++
  "(6, [Value { value: 6 }, Point { x: 206, y: 206 }]), (7, [Value { value: 7 }, Point { x: 207, y: 207 }]), " +++
  "(8, [Value { value: 8 }, Point { x: 208, y: 208 }]), (9, [Value { value: 9 }, Point { x: 209, y: 209 }])]... }".
Definition debug_multis (b : build) (e : endian) : bool :=
  match create_view b e 100 with
  | Ret v =>
      same_text (mav_text b e 4 32 m_Variant n_Variant v) ("MultiArrayView" +++ variant_preview) &&
      same_text (mav_iter_text b e 4 32 m_Variant n_Variant v) ("MultiArrayViewIter" +++ variant_preview) &&
      same_text (obind (mav_at b e 4 32 v 5) (item_iter_text b e m_Variant n_Variant))
        "MultiArrayViewItemIter { data: [Value { value: 5 }, Point { x: 205, y: 205 }] }" &&
      same_text (obind (mav_iter_run b e 4 32 (repeat false 99) v) (fun x => mav_iter_text b e 4 32 m_Variant n_Variant (snd x)))
        "MultiArrayViewIter { len: 1, data: [(0, [Value { value: 99 }, Point { x: 299, y: 299 }])] }"
  | _ => false
  end.
Definition debug_multis_run : list bool := Eval vm_compute in [debug_multis Debug LE; debug_multis Debug BE; debug_multis Release LE; debug_multis Release BE].
Example C66_multi_example : debug_multis_run = [true; true; true; true] /\ vnames_ok m_Variant n_Variant.
Proof. split; [reflexivity|]. split; [repeat (constructor; [names_solve|]); constructor|nodup_solve]. Qed.

(** C67: an archive has a text if structs are long enough, multivectors are
    intact and there are no undeclared enumerators; [addr] gives addresses. *)
Theorem C67_archive_text_partial b e addr a ns x : anames_ok a ns -> printable a ns x -> exists t, archive_text b e addr a ns x = Ret t.
Proof. exact (archive_text_ok b e addr a ns x). Qed.
Print Assumptions C67_archive_text_partial.
(** In particular what a builder has made and open has returned. *)
Theorem C67_built_text b e b' e' b'' e'' lim a st w st' w1 ops A flags s' w2 ns addr :
  wf_archive (is_file st) a -> maps_ok w -> unused_storage st w ->
  builder_new b e a st w = (Ret (Ok st'), w1) ->
  history (is_file st) a no_plan ops A -> finished A ->
  brun b e lim a ops (new_bstate st') w1 = (Ret (flags, s'), w2) -> Forall (eq true) flags ->
  anames_ok a ns -> all_plain ns ->
  (forall x w3, open_archive b' e' a st (set_faults [] w2) = (Ret (Ok x), w3) -> exists t, archive_text b'' e'' addr a ns x = Ret t) /\
  (forall id base x, st = FileStorage id base -> fresh_open b' e' a base w2 = Ret (Ok x) -> exists t, archive_text b'' e'' addr a ns x = Ret t).
Proof. exact (built_text b e b' e' b'' e'' lim a st w st' w1 ops A flags s' w2 ns addr). Qed.
Print Assumptions C67_built_text.
(** Whatever was opened: a text or a panic, if structs are long enough. *)
Theorem C67_opened_text_partial b e addr strict a p ns x : anames_ok a ns -> all_plain ns -> opened strict a p x -> structs_fit a x ->
  text_or_panic (archive_text b e addr a ns x).
Proof. exact (archive_text_safe b e addr strict a p ns x). Qed.
Print Assumptions C67_opened_text_partial.

(** The archive of PropsBuilder.v.  There is a stray comma after the brace. *)
Definition n_B := mkNames "B" [("x", AsNumber); ("y", AsNumber)].
Definition n_SubArch := mkANames [] [] [] [].
Definition n_Arch := mkANames [n_A; n_A] [n_A; n_A] [[n_A; n_B]; [n_A; n_B]] [n_SubArch; n_SubArch].
Definition ex_addr (d : slice) : string := "0x7f0000000008".
Lemma n_Arch_ok : anames_ok ex_Arch n_Arch /\ all_plain n_Arch.
Proof.
  assert (Na : names_ok ex_A n_A) by names_solve. assert (Nb : names_ok ex_A n_B) by names_solve.
  assert (Wa : wf_struct ex_A) by (apply wf_struct_dec; reflexivity).
  assert (Wi : wf_struct (index_struct 4 32)) by (apply wf_struct_dec; reflexivity).
  assert (Pa : plain n_A) by (repeat (constructor; [discriminate|]); constructor).
  assert (Pb : plain n_B) by (repeat (constructor; [discriminate|]); constructor).
  assert (T : forall name schema opt, typed_names_ok (mkTyped name ex_A schema opt) n_A) by (intros; split; assumption).
  assert (Mu : forall name schema index opt, multi_names_ok (mkMulti name ex_Ts schema index 4 32 opt) [n_A; n_B]).
  { intros. split; [exact Wi|]. split; [range_solve|]. split; [apply ex_Ts_wf|]. split; [repeat (constructor; [assumption|]); constructor|nodup_solve]. }
  split.
  - split; [repeat (constructor; [apply T|]); constructor|]. split; [repeat (constructor; [apply T|]); constructor|].
    split; [repeat (constructor; [apply Mu|]); constructor|]. cbn. repeat first [exact I|split|constructor].
  - constructor; repeat first [exact Pa|exact Pb|constructor].
Qed.
Definition text_of (b : build) (e : endian) (a : adesc) (ns : anames) (o : outcome (result archive rs_error)) : outcome string :=
  match o with Ret (Ok x) => archive_text b e ex_addr a ns x | _ => Crash end.
Definition built_text_run : list (outcome string) := Eval vm_compute in
  map (fun x => text_of (fst x) (snd x) ex_Arch n_Arch (fresh_open (fst x) (snd x) ex_Arch "/d" (snd (ex_build (fst x) (snd x) ex_fs ex_ops ex_w))))
    [(Debug, LE); (Debug, BE); (Release, LE); (Release, BE)].
Example C67_example : built_text_run = repeat (Ret (
  "Arch { , a: A { x: 513, y: 1027 }, b: None, v: ArrayView { len: 2, data: [A { x: 1, y: 2 }, A { x: 3, y: 4 }] }, w: None, " +++
  "mv: MultiArrayView { len: 2, data: [(0, [B { x: 5, y: 6 }]), (1, [])] }, mw: None, " +++
  "r: MemoryDescriptor { ptr: 0x7f0000000008, size: 1 }, s: None, " +++
  "arch: SubArch { , raw: MemoryDescriptor { ptr: 0x7f0000000008, size: 2 } }, opt_arch: None }")) 4.
Proof. reflexivity. Qed.

(** Not for every archive that opens: a multivector written by a process that
    stopped panics, a struct that is too short makes a read out of bounds. *)
Definition n_Torn := mkANames [] [] [[mkNames "P" [("p", AsNumber)]]] [].
Theorem C67_torn_refuted : forall b e,
  text_of b e ex_Torn n_Torn (fresh_open b e ex_Torn "/d" (snd (ex_torn b e (ex_dying 28)))) = Panic.
Proof. intros b e. destruct b, e; vm_compute; reflexivity. Qed.
Print Assumptions C67_torn_refuted.
Definition n_Short := mkANames [mkNames "Big" [("x", AsNumber); ("y", AsNumber)]] [] [] [].
Theorem C67_short_refuted : let w := put_res "/d" "Short.archive" [65] [] (put_res "/d" "x" [66] [1] ex_w) in
  forall b e, text_of b e ex_short n_Short (fresh_open b e ex_short "/d" w) = UB.
Proof. intros w b e. destruct b, e; vm_compute; reflexivity. Qed.
Print Assumptions C67_short_refuted.
(** Different raw data of the same size have the same text if they are at the
    same place. *)
Theorem C67_raw_refuted : exists x y, forall b e,
  visible x <> visible y /\ archive_text b e ex_addr ex_SubArch n_SubArch x = archive_text b e ex_addr ex_SubArch n_SubArch y.
Proof.
  exists (mkOpened [] [] [] [Some (mkSlice [1] 1)] []), (mkOpened [] [] [] [Some (mkSlice [2] 1)] []).
  intros b e. split; [discriminate|reflexivity].
Qed.
Print Assumptions C67_raw_refuted.
