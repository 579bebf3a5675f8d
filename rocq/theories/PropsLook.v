(** Property C87: when the Debug texts of two archives are equal.
    Vocabulary: [anames_ok], [printable] (TextSpec.v), [complete] (DuringSpec.v: no
    required part is missing), [opened] (ArchiveSpec.v), [alike] (LookSpec.v: the same
    parts are missing, structs have the same fields, vectors and multivectors the same
    length and the same first ten elements, raw data the same size and address). *)
From Verif Require Import Base BaseFacts Codec CodecSpec CodecFacts Structs StructsSpec StructsFacts Views ViewsSpec ViewsFacts.
From Verif Require Import Storage PathFacts StorageSpec PropsStorage Writers WritersSpec MultiViews MultiSpec MultiViewFacts MultiViewUse PropsMultiViews.
From Verif Require Import Archives ArchiveSpec ArchiveFacts PropsArchive BuilderSpec PropsBuilder PropsViews Text TextSpec TextFacts TextUse PropsText.
From Verif Require Import DuringSpec DuringUse LookSpec LookFacts.
Local Open Scope string_scope.
Local Open Scope list_scope.
Local Open Scope Z_scope.

Theorem C87_text_eq b e b' e' addr a ns x x' t t' : anames_ok a ns -> (forall d, ident (addr d)) ->
  printable a ns x -> printable a ns x' -> complete a x -> complete a x' ->
  archive_text b e addr a ns x = Ret t -> archive_text b' e' addr a ns x' = Ret t' -> (t = t' <-> alike addr a x x').
Proof. intros N A P P' C C' E E'. apply (archive_tells b e b' e' addr a A ns x x' t t' N P P' C C' E E'). Qed.
Print Assumptions C87_text_eq.
(** Archives that were opened are complete. *)
Theorem C87_opened_complete strict a p x : opened strict a p x -> complete a x.
Proof. exact (opened_complete strict a p x). Qed.
Print Assumptions C87_opened_complete.

(** Every kind of resource, all of them optional. *)
Definition lk_sub := mkArchive "Inner" [] [] [] [] [mkRaw "raw" [] true] [].
Definition lk := mkArchive "Look" [] [mkTyped "a" ex_A [] true] [mkTyped "v" ex_A [] true]
  [mkMulti "mv" ex_ts [] "mv_index" 4 32 true] [mkRaw "r" [] true] [("sub", lk_sub, true)].
Definition lk_names := mkANames [n_A] [n_A] [[mkNames "P" [("p", AsNumber)]; mkNames "Q" [("x", AsNumber); ("y", AsNumber)]]] [mkANames [] [] [] []].
Definition lk_archive (m v : list Z) (sub : option archive) : archive :=
  mkOpened [Some (whole m)] [Some (whole v)] [(Some ex_index, Some ex_data)] [Some (whole [1; 2])] [sub].
Definition lk_empty := mkOpened [None] [None] [(None, Some ex_data)] [None] [None].
Definition lk_inner := Some (mkOpened [] [] [] [Some (whole [7])] []).
Definition lk_full := lk_archive [1; 0; 2; 0] [3; 0; 4; 0; 9] lk_inner.
Lemma lk_printable m v sub : bytes_ok m -> len m <= isize_max -> 4 <= len m -> bytes_ok v -> len v <= isize_max -> printable lk lk_names (lk_archive m v sub).
Proof.
  intros Bm Lm Sm Bv Lv. assert (Na : names_ok ex_A n_A) by names_solve.
  assert (Pa : plain n_A) by (repeat (constructor; [discriminate|]); constructor). apply printable_eq. split; [|split; [|split]].
  - intros [|[|k]] r n m' [= <-] [= <-] [= <-]. split; [exact Bm|]. split; [exact Sm|]. eapply plain_sayable; [exact Na|reflexivity|exact Pa].
  - intros [|[|k]] r n m' [= <-] [= <-] [= <-]. split; [apply slice_ok_whole; auto|]. apply plain_records; auto.
  - intros [|[|k]] r n m' [= <-] [= <-] [= <-]. exists ex_buckets. split; [exact ex_mav_shows|]. repeat constructor.
  - intros [|[|k]] s n x' [= <-] [= <-] Hx. apply printable_eq. cbn.
    split; [|split; [|split]]; intros [|i] ? ? ?; discriminate.
Qed.
Lemma lk_complete x : complete lk x.
Proof.
  assert (S : forall y, complete lk_sub y).
  { intros y. apply complete_eq. split; [|split; [|split; [|split]]].
    - intros [|k] r; discriminate.
    - intros [|k] r; discriminate.
    - intros [|k] r; discriminate.
    - intros [|[|k]] r [= <-]; discriminate.
    - intros [|k] r; discriminate. }
  apply complete_eq. split; [|split; [|split; [|split]]].
  - intros [|[|k]] r [= <-]; discriminate.
  - intros [|[|k]] r [= <-]; discriminate.
  - intros [|[|k]] r [= <-]; discriminate.
  - intros [|[|k]] r [= <-]; discriminate.
  - intros [|[|k]] s [= <-]. destruct (nth 0 (ar_subs x) None); [apply S|reflexivity].
Qed.
Lemma lk_names_ok : anames_ok lk lk_names.
Proof.
  assert (Na : names_ok ex_A n_A) by names_solve. assert (Wa : wf_struct ex_A) by (apply wf_struct_dec; reflexivity).
  split; [constructor; [split; auto|constructor]|]. split; [constructor; [split; auto|constructor]|]. split.
  - constructor; [|constructor]. split; [exact ex_index_wf|]. split; [range_solve|]. split; [exact ex_ts_wf|].
    split; [|nodup_solve]. constructor; [names_solve|]. constructor; [names_solve|]. constructor.
  - cbn. repeat split; constructor.
Qed.
Definition lk_text (x : archive) : list (outcome string) :=
  map (fun be => archive_text (fst be) (snd be) ex_addr lk lk_names x) [(Debug, LE); (Debug, BE); (Release, LE); (Release, BE)].
Definition lk_mid : string := ", mv: Some(MultiArrayView { len: 3, data: [(0, [P { p: 197121 }]), (1, []), (2, [Q { x: 10, y: -2 }, P { p: 16777215 }])] })" +++
  ", r: Some(MemoryDescriptor { ptr: 0x7f0000000008, size: 2 }), sub: ".
Example C87_example :
  anames_ok lk lk_names /\ (forall d, ident (ex_addr d)) /\ (forall x, complete lk x) /\
  printable lk lk_names lk_full /\ printable lk lk_names (lk_archive [1; 0; 2; 0] [3; 0; 5; 0] lk_inner) /\
  lk_text lk_full = repeat (Ret ("Look { , a: Some(A { x: 1, y: 2 }), v: Some(ArrayView { len: 1, data: [A { x: 3, y: 4 }] })" +++ lk_mid +++
    "Some(Inner { , raw: Some(MemoryDescriptor { ptr: 0x7f0000000008, size: 1 }) }) }")) 4 /\
  lk_text (lk_archive [1; 0; 2; 0] [3; 0; 5; 0] None) = repeat (Ret ("Look { , a: Some(A { x: 1, y: 2 }), v: Some(ArrayView { len: 1, data: [A { x: 3, y: 5 }] })" +++ lk_mid +++
    "None }")) 4 /\
  lk_text lk_empty = repeat (Ret "Look { , a: None, v: None, mv: None, r: None, sub: None }") 4 /\
  (** the byte behind the last element of the vector is not shown *)
  alike ex_addr lk lk_full (lk_archive [1; 0; 2; 0] [3; 0; 4; 0] lk_inner) /\
  ~ alike ex_addr lk lk_full (lk_archive [1; 0; 2; 0] [3; 0; 5; 0] lk_inner).
Proof.
  assert (B : forall l, stored_check l = true -> bytes_ok l).
  { induction l as [|x l IH]; [constructor|]. cbn. intros H. apply andb_prop in H as [H Hl]. apply andb_prop in H as [H1 H2].
    constructor; [unfold is_byte; lia|exact (IH Hl)]. }
  assert (P : forall m v sub, stored_check m = true -> stored_check v = true -> len m <= isize_max -> 4 <= len m -> len v <= isize_max ->
    printable lk lk_names (lk_archive m v sub)) by (intros; apply lk_printable; auto).
  split; [exact lk_names_ok|]. split; [intros d; ident_solve|]. split; [exact lk_complete|].
  split; [apply P; first [reflexivity|range_solve]|]. split; [apply P; first [reflexivity|range_solve]|].
  split; [vm_compute; reflexivity|]. split; [vm_compute; reflexivity|]. split; [vm_compute; reflexivity|]. split.
  - apply alike_eq. split; [|split; [|split; [|split]]]; intros [|[|k]] r [= <-]; cbn [both].
    + reflexivity.
    + split; vm_compute; reflexivity.
    + exists ex_buckets, ex_buckets. split; [exact ex_mav_shows|]. split; [exact ex_mav_shows|]. split; reflexivity.
    + split; reflexivity.
    + cbn. split; [|split; [|split; [|split]]]; try (intros [|k] r; discriminate); [|exact I]. intros [|[|k]] r [= <-]. split; reflexivity.
  - intros H. apply alike_eq in H as (_ & H & _). specialize (H O _ eq_refl). destruct H as [_ H]. vm_compute in H. discriminate H.
Qed.
