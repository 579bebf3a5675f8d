(** Proofs about Debug texts of archives. *)
From Verif Require Import Base BaseFacts Codec CodecSpec CodecFacts Structs StructsSpec StructsFacts Views ViewsSpec ViewsFacts.
From Verif Require Import Storage PathFacts StorageSpec Writers WritersSpec MultiViews MultiSpec MultiViewFacts MultiViewUse Archives ArchiveSpec ArchiveFacts.
From Verif Require Import StorageFacts StorageMore StorageUse HandleFacts ElsewhereFacts BuilderSpec BuilderFacts BuilderUse Text TextSpec TextFacts.
Local Open Scope string_scope.
Local Open Scope list_scope.
Local Open Scope Z_scope.

(** * Equations *)
Definition an_structs (n : anames) := let 'mkANames x _ _ _ := n in x.
Definition an_vectors (n : anames) := let 'mkANames _ x _ _ := n in x.
Definition an_multis (n : anames) := let 'mkANames _ _ x _ := n in x.
Definition an_subs (n : anames) := let 'mkANames _ _ _ x := n in x.
Lemma anames_ok_eq a ns : anames_ok a ns <->
  Forall2 typed_names_ok (ad_structs a) (an_structs ns) /\ Forall2 typed_names_ok (ad_vectors a) (an_vectors ns) /\
  Forall2 multi_names_ok (ad_multis a) (an_multis ns) /\ Forall2 (fun s n => anames_ok (snd (fst s)) n) (ad_subs a) (an_subs ns).
Proof.
  destruct a as [name schema ss vs ms rs subs], ns as [n1 n2 n3 n4]. cbn [anames_ok ad_structs ad_vectors ad_multis ad_subs an_structs an_vectors an_multis an_subs].
  match goal with |- _ /\ _ /\ _ /\ ?G _ _ <-> _ => set (go := G) end.
  assert (H : forall l ys, go l ys <-> Forall2 (fun s n => anames_ok (snd (fst s)) n) l ys).
  { induction l as [|[[n a] opt] l IH]; intros [|y ys]; simpl.
    - split; auto.
    - split; [contradiction|inversion 1].
    - split; [contradiction|inversion 1].
    - rewrite IH. split; [intros (A & B); constructor; auto|inversion 1; subst; auto]. }
  rewrite H. reflexivity.
Qed.
Lemma printable_eq a ns x : printable a ns x <->
  (forall k r n m, nth_error (ad_structs a) k = Some r -> nth_error (an_structs ns) k = Some n -> get_struct x k = Some m -> struct_printable r n m) /\
  (forall k r n v, nth_error (ad_vectors a) k = Some r -> nth_error (an_vectors ns) k = Some n -> get_vector x k = Some v -> vector_printable r n v) /\
  (forall k r n v, nth_error (ad_multis a) k = Some r -> nth_error (an_multis ns) k = Some n -> get_multi x k = Some v -> multi_printable r n v) /\
  (forall k s n x', nth_error (ad_subs a) k = Some s -> nth_error (an_subs ns) k = Some n -> get_sub x k = Some x' -> printable (snd (fst s)) n x').
Proof.
  destruct a as [name schema ss vs ms rs subs], ns as [n1 n2 n3 n4]. cbn [printable ad_structs ad_vectors ad_multis ad_subs an_structs an_vectors an_multis an_subs].
  match goal with |- _ /\ _ /\ _ /\ ?G _ _ _ <-> _ => set (go := G) end.
  assert (H : forall l ns i, go i l ns <-> forall k s n x', nth_error l k = Some s -> nth_error ns k = Some n -> get_sub x (i + k) = Some x' -> printable (snd (fst s)) n x').
  { clear. induction l as [|[[n a] o] l IH]; intros [|y ys] i; cbn [go].
    - split; auto. intros _ [|k]; discriminate.
    - split; auto. intros _ [|k]; discriminate.
    - split; auto. intros _ [|k]; discriminate.
    - rewrite IH. split.
      + intros [A B] [|k] s m x' Hs Hm Hx; cbn [nth_error] in *.
        * injection Hs as <-. injection Hm as <-. rewrite Nat.add_0_r in Hx. exact (A x' Hx).
        * rewrite <- Nat.add_succ_comm in Hx. eauto.
      + intros A. split.
        * intros x' Hx. apply (A O (n, a, o) y x' eq_refl eq_refl). rewrite Nat.add_0_r. exact Hx.
        * intros k s m x' Hs Hm Hx. apply (A (S k) s m x' Hs Hm). rewrite <- Nat.add_succ_comm. exact Hx. }
  rewrite H. reflexivity.
Qed.
Lemma structs_fit_eq a x : structs_fit a x <->
  (forall k r sl, nth_error (ad_structs a) k = Some r -> nth k (ar_structs x) None = Some sl -> s_size (tr_struct r) <= sl_len sl) /\
  (forall k s x', nth_error (ad_subs a) k = Some s -> get_sub x k = Some x' -> structs_fit (snd (fst s)) x').
Proof.
  destruct a as [name schema ss vs ms rs subs]. cbn [structs_fit ad_structs ad_subs].
  match goal with |- _ /\ ?G _ _ <-> _ => set (go := G) end.
  assert (H : forall l i, go i l <-> forall k s x', nth_error l k = Some s -> get_sub x (i + k) = Some x' -> structs_fit (snd (fst s)) x').
  { clear. induction l as [|[[n a] o] l IH]; intros i; cbn [go].
    - split; auto. intros _ [|k]; discriminate.
    - rewrite IH. split.
      + intros [A B] [|k] s x' Hs Hx; cbn [nth_error] in *.
        * injection Hs as <-. rewrite Nat.add_0_r in Hx. exact (A x' Hx).
        * rewrite <- Nat.add_succ_comm in Hx. eauto.
      + intros A. split.
        * intros x' Hx. apply (A O (n, a, o) x' eq_refl). rewrite Nat.add_0_r. exact Hx.
        * intros k s x' Hs Hx. apply (A (S k) s x' Hs). rewrite <- Nat.add_succ_comm. exact Hx. }
  rewrite H. reflexivity.
Qed.

(** * Texts of parts *)
Section Text.
Variables (b : build) (e : endian) (addr : slice -> string).
Definition typed_one {V} (text : sdesc -> names -> V -> outcome string) (get : nat -> option V) (ns : list names) (k : nat) (r : typed_res) : outcome string :=
  t <- opt_run (text (tr_struct r) (nth k ns (mkNames "" []))) (get k) ;; Ret (labelled (tr_name r) (tr_opt r) t).
Definition multi_one (x : archive) (ns : list (list names)) (k : nat) (r : multi_res) : outcome string :=
  t <- opt_run (mav_text b e (mr_size r) (mr_bits r) (mr_types r) (nth k ns [])) (get_multi x k) ;;
  Ret (labelled (mr_name r) (mr_opt r) t).
Definition sub_one (x : archive) (ns : list anames) (k : nat) (s : string * adesc * bool) : outcome string :=
  t <- opt_run (archive_text b e addr (snd (fst s)) (nth k ns no_names)) (get_sub x k) ;;
  Ret (labelled (fst (fst s)) (snd s) t).
Definition raw_texts (x : archive) (raws : list raw_res) : list string :=
  map (fun p => labelled (rr_name (snd p)) (rr_opt (snd p)) (option_map (memory_text addr) (get_raw x (fst p)))) (combine (seq 0 (List.length raws)) raws).
Lemma archive_text_eq a ns x : archive_text b e addr a ns x =
  (t1 <- part_texts (typed_one (struct_text b e) (get_struct x) (an_structs ns)) 0 (ad_structs a) ;;
   t2 <- part_texts (typed_one (av_text b e) (get_vector x) (an_vectors ns)) 0 (ad_vectors a) ;;
   t3 <- part_texts (multi_one x (an_multis ns)) 0 (ad_multis a) ;;
   t5 <- part_texts (sub_one x (an_subs ns)) 0 (ad_subs a) ;;
   Ret (ad_name a +++ " { " +++ intersperse ("" :: t1 ++ t2 ++ t3 ++ raw_texts x (ad_raws a) ++ t5) +++ " }")).
Proof.
  destruct a as [name schema ss vs ms rs subs], ns as [n1 n2 n3 n4].
  cbn [archive_text ad_name ad_structs ad_vectors ad_multis ad_raws ad_subs an_structs an_vectors an_multis an_subs].
  match goal with |- context [obind (?G O subs) _] => set (go := G) end.
  assert (H : forall l k, go k l = part_texts (sub_one x n4) k l).
  { clear. induction l as [|[[n a] o] l IH]; intros k; cbn [go part_texts]; [reflexivity|]. rewrite IH. unfold sub_one at 2. cbn [fst snd].
    destruct (opt_run (archive_text b e addr a (nth k n4 no_names)) (get_sub x k)); cbn [obind]; reflexivity. }
  rewrite H. reflexivity.
Qed.
End Text.
Lemma part_texts_ok {R} (one : nat -> R -> outcome string) l : forall i, (forall k r, nth_error l k = Some r -> exists t, one (i + k)%nat r = Ret t) ->
  exists ts, part_texts one i l = Ret ts.
Proof.
  induction l as [|r l IH]; intros i H; cbn [part_texts]; [eauto|].
  destruct (H O r eq_refl) as [t E]. rewrite Nat.add_0_r in E. rewrite E. cbn [obind].
  destruct (IH (S i)) as [ts ->]; [|cbn [obind]; eauto]. intros k r' Hk. destruct (H (S k) r' Hk) as [t' E']. rewrite <- Nat.add_succ_comm in E'. eauto.
Qed.
Lemma part_texts_safe {R} (one : nat -> R -> outcome string) l : forall i, (forall k r, nth_error l k = Some r -> text_or_panic (one (i + k)%nat r)) ->
  part_texts one i l = Panic \/ exists ts, part_texts one i l = Ret ts.
Proof.
  induction l as [|r l IH]; intros i H; cbn [part_texts]; [eauto|].
  assert (E := H O r eq_refl). rewrite Nat.add_0_r in E. destruct E as [E|[t E]]; rewrite E; cbn [obind]; [auto|].
  destruct (IH (S i)) as [->|[ts ->]]; [|cbn [obind]; eauto|cbn [obind]; eauto].
  intros k r' Hk. assert (E' := H (S k) r' Hk). rewrite <- Nat.add_succ_comm in E'. exact E'.
Qed.
Lemma labelled_ok {V} (text : V -> outcome string) o n opt : (forall v, o = Some v -> exists t, text v = Ret t) ->
  exists t, (t <- opt_run text o ;; Ret (labelled n opt t)) = Ret t.
Proof. intros H. destruct o as [v|]; cbn; [destruct (H v eq_refl) as [t ->]; cbn|]; eauto. Qed.
Lemma labelled_safe {V} (text : V -> outcome string) o n opt : (forall v, o = Some v -> text_or_panic (text v)) ->
  text_or_panic (t <- opt_run text o ;; Ret (labelled n opt t)).
Proof. unfold text_or_panic. intros H. destruct o as [v|]; cbn; [destruct (H v eq_refl) as [->|[t ->]]; cbn|]; eauto. Qed.
Lemma Forall2_at {A B} (R : A -> B -> Prop) l l' k x d : Forall2 R l l' -> nth_error l k = Some x -> nth_error l' k = Some (nth k l' d) /\ R x (nth k l' d).
Proof.
  intros F. revert k. induction F as [|y z l l' H F IH]; intros [|k] E; try discriminate E; cbn in *; [|auto].
  injection E as <-. auto.
Qed.

Lemma archive_text_ok b e addr a : forall ns x, anames_ok a ns -> printable a ns x -> exists t, archive_text b e addr a ns x = Ret t.
Proof.
  induction a as [name schema ss vs ms rs subs IH] using adesc_deep_ind. set (a := mkArchive name schema ss vs ms rs subs) in *.
  intros ns x N P. apply anames_ok_eq in N as (N1 & N2 & N3 & N4). apply printable_eq in P as (P1 & P2 & P3 & P4). rewrite archive_text_eq.
  destruct (part_texts_ok (typed_one (struct_text b e) (get_struct x) (an_structs ns)) (ad_structs a) 0) as [t1 ->].
  { intros k r Hk. cbn [plus]. destruct (Forall2_at _ _ _ k r (mkNames "" []) N1 Hk) as [Hn [Wr No]]. apply labelled_ok. intros m Hm.
    destruct (P1 k r _ m Hk Hn Hm) as (B & L & S). destruct (struct_text_spec b e _ _ m Wr No B L) as [[_ E]|[S' _]]; [eauto|contradiction]. }
  cbn [obind]. destruct (part_texts_ok (typed_one (av_text b e) (get_vector x) (an_vectors ns)) (ad_vectors a) 0) as [t2 ->].
  { intros k r Hk. cbn [plus]. destruct (Forall2_at _ _ _ k r (mkNames "" []) N2 Hk) as [Hn [Wr No]]. apply labelled_ok. intros m Hm.
    destruct (P2 k r _ m Hk Hn Hm) as (B & S). destruct (view_text_spec b e "ArrayView" _ _ m Wr No B) as [[_ E]|[S' _]]; [eauto|contradiction]. }
  cbn [obind]. destruct (part_texts_ok (multi_one b e x (an_multis ns)) (ad_multis a) 0) as [t3 ->].
  { intros k r Hk. cbn [plus]. destruct (Forall2_at _ _ _ k r [] N3 Hk) as [Hn (Wi & _ & Wt & No)]. apply labelled_ok. intros m Hm.
    destruct (P3 k r _ m Hk Hn Hm) as (l & Sh & S).
    destruct (multi_text_spec b e "MultiArrayView" (mr_size r) (mr_bits r) (mr_types r) _ m l Wi Wt No Sh) as [[_ E]|[S' _]]; [eauto|contradiction]. }
  cbn [obind]. destruct (part_texts_ok (sub_one b e addr x (an_subs ns)) (ad_subs a) 0) as [t5 ->].
  { intros k s Hk. cbn [plus]. destruct (Forall2_at _ _ _ k s no_names N4 Hk) as [Hn No]. apply labelled_ok. intros y Hy.
    rewrite Forall_forall in IH. apply (IH s (nth_error_In _ _ Hk)); [exact No|]. exact (P4 k s _ y Hk Hn Hy). }
  cbn [obind]. eauto.
Qed.

(** * Arbitrary contents *)
Lemma plain_struct_ok b e s n m : wf_struct s -> names_ok s n -> plain n -> bytes_ok m -> s_size s <= len m -> exists t, struct_text b e s n m = Ret t.
Proof.
  intros W N P B L. destruct (struct_text_spec b e s n m W N B L) as [[_ E]|[S _]]; [eauto|]. destruct S.
  eapply plain_sayable; eauto. unfold decode. apply map_length.
Qed.
Lemma plain_records s n v : names_ok s n -> plain n -> Forall (sayable n) (firstn 10 (records s (sl_bytes v))).
Proof.
  intros N P. apply Forall_forall. intros r I. assert (I' : In r (records s (sl_bytes v))) by (rewrite <- (firstn_skipn 10); apply in_or_app; auto).
  unfold records in I'. apply in_map_iff in I' as (i & <- & _). eapply plain_sayable; eauto. unfold decode. apply map_length.
Qed.
Lemma plain_view_ok b e title s n v : wf_struct s -> names_ok s n -> plain n -> slice_ok v -> exists t, view_text b e title s n v = Ret t.
Proof.
  intros W N P V. destruct (view_text_spec b e title s n v W N V) as [[_ E]|[S _]]; [eauto|]. destruct S. apply plain_records; auto.
Qed.
Lemma plain_values ts ns (l : list (list value)) : vnames_ok ts ns -> Forall plain ns -> (forall x y, In x l -> In y x -> value_ok ts y) ->
  Forall (Forall (item_sayable ns)) (firstn 10 l).
Proof.
  intros V P H. apply Forall_forall. intros x I. assert (I' : In x l) by (rewrite <- (firstn_skipn 10); apply in_or_app; auto).
  apply Forall_forall. intros y J. destruct (H x y I' J) as [L R]. eapply plain_sayable; [eapply vnames_nth; eauto| |].
  - symmetry. eapply Forall2_length; eauto.
  - rewrite Forall_forall in P. apply P. apply nth_In. rewrite (vnames_length _ _ V). exact L.
Qed.
Lemma item_text_ok b e ts ns i d : wf_vdesc ts -> vnames_ok ts ns -> Forall plain ns -> slice_ok d -> item_in ts d (Some i) ->
  exists t, item_text b e ts ns i = Ret t.
Proof.
  intros W V P D. destruct i as [t m]. intros [Ht (p & Hp & Hpl & ->)]. unfold item_text. cbn [fst snd].
  destruct D as (D1 & D2 & D3).
  assert (Wt : wf_struct (v_struct ts t)).
  { destruct W as [W _]. rewrite Forall_forall in W. apply (W (nth t ts (0, mkStruct 0 []))). apply nth_In. exact Ht. }
  assert (Sz : 0 < s_size (v_struct ts t)) by apply Wt.
  apply plain_struct_ok; auto.
  - apply vnames_nth; auto.
  - rewrite Forall_forall in P. apply P. apply nth_In. rewrite (vnames_length _ _ V). exact Ht.
  - apply bytes_ok_skipn. exact D3.
  - rewrite len_skipn by lia. lia.
Qed.
Lemma map_outcome_ok {A B} (f : A -> outcome B) l : (forall x, In x l -> exists y, f x = Ret y) -> exists ys, map_outcome f l = Ret ys.
Proof.
  induction l as [|x l IH]; intros H; cbn [map_outcome]; [eauto|]. destruct (H x (or_introl eq_refl)) as [y ->]. cbn [obind].
  destruct IH as [ys ->]; [intros z I; apply H; right; exact I|]. cbn [obind]. eauto.
Qed.
Definition item_good (b : build) (e : endian) ts ns (i : item) : Prop := exists t, item_text b e ts ns i = Ret t.
Lemma mav_take_safe b e size bits ts ns k : wf_struct (index_struct size bits) -> size <= isize_max -> wf_vdesc ts -> vnames_ok ts ns -> Forall plain ns ->
  forall v, mav_ok v -> mav_take b e size bits ts k v = Panic \/
    exists ls, mav_take b e size bits ts k v = Ret ls /\ Forall (Forall (item_good b e ts ns)) ls.
Proof.
  intros Wi Sz W V P. induction k as [|k IH]; intros v Hv; cbn [mav_take]; [right; exists []; auto|].
  destruct (mav_step_safe b e size bits Wi v CNext Sz Hv I) as [E|(o & w & E & Ow & _ & _ & Hd)]; cbn [mav_step] in E; rewrite E; cbn [obind]; [auto|].
  cbn [fst snd]. destruct o as [d|]; [|right; exists []; auto]. destruct (Hd d eq_refl) as [Od _].
  destruct (item_collect_safe ts d W Od) as [->|(is & -> & F)]; cbn [obind]; [auto|].
  destruct (IH w Ow) as [->|(ls & -> & Fl)]; cbn [obind]; [auto|]. right. eexists. split; [reflexivity|]. constructor; [|exact Fl].
  eapply Forall_impl; [|exact F]. intros i Hi. exact (item_text_ok b e ts ns i d W V P Od Hi).
Qed.
Lemma multi_text_safe b e title size bits ts ns v : wf_struct (index_struct size bits) -> size <= isize_max -> wf_vdesc ts -> vnames_ok ts ns -> Forall plain ns ->
  mav_ok v -> text_or_panic (multi_text b e title size bits ts ns v).
Proof.
  intros Wi Sz W V P Hv. unfold text_or_panic, multi_text, mav_iter_len, mav_len.
  destruct (usub_safe b (av_len (index_struct size bits) (ma_index v)) 1) as [->|(z & -> & _)]; cbn [obind]; [auto|].
  destruct (mav_take_safe b e size bits ts ns (Z.to_nat DEBUG_PREVIEW_LEN) Wi Sz W V P v Hv) as [->|(ls & -> & F)]; cbn [obind]; [auto|]. right.
  destruct (map_outcome_ok (map_outcome (item_text b e ts ns)) ls) as [bs ->]; [|cbn [obind]; eauto].
  intros is I. rewrite Forall_forall in F. specialize (F is I). apply map_outcome_ok. rewrite Forall_forall in F. exact F.
Qed.
Lemma all_plain_eq ns : all_plain ns <-> Forall plain (an_structs ns) /\ Forall plain (an_vectors ns) /\ Forall (Forall plain) (an_multis ns) /\ Forall all_plain (an_subs ns).
Proof. destruct ns as [n1 n2 n3 n4]. split; [inversion 1; subst; auto|]. intros (H1 & H2 & H3 & H4). constructor; auto. Qed.
Lemma archive_text_safe b e addr strict a : forall p ns x, anames_ok a ns -> all_plain ns -> opened strict a p x -> structs_fit a x ->
  text_or_panic (archive_text b e addr a ns x).
Proof.
  induction a as [name schema ss vs ms rs subs IH] using adesc_deep_ind. set (a := mkArchive name schema ss vs ms rs subs) in *.
  intros p ns x N P O F. apply anames_ok_eq in N as (N1 & N2 & N3 & N4). apply all_plain_eq in P as (P1 & P2 & P3 & P4).
  apply opened_eq in O as (_ & O1 & O2 & O3 & _ & O5). apply structs_fit_eq in F as (F1 & F2). rewrite archive_text_eq.
  assert (Pn : forall (l : list names) k n, Forall plain l -> nth_error l k = Some n -> plain n).
  { intros l k n Fl E. rewrite Forall_forall in Fl. apply Fl. eapply nth_error_In; eauto. }
  unfold text_or_panic.
  destruct (part_texts_safe (typed_one (struct_text b e) (get_struct x) (an_structs ns)) (ad_structs a) 0) as [->|[t1 ->]]; cbn [obind]; [|auto|].
  { intros k r Hk. cbn [plus]. destruct (Forall2_at _ _ _ k r (mkNames "" []) N1 Hk) as [Hn [Wr No]]. apply labelled_safe. intros m Hm. right.
    assert (Hp := nth_error_Forall2 _ _ _ _ _ None O1 Hk). unfold get_struct in Hm. destruct (nth k (ar_structs x) None) as [sl|] eqn:Es; [|discriminate].
    injection Hm as <-. destruct Hp as (_ & (S1 & S2 & S3) & _). specialize (F1 k r sl Hk Es). apply plain_struct_ok; [exact Wr|exact No|exact (Pn _ _ _ P1 Hn)|exact S3|lia]. }
  destruct (part_texts_safe (typed_one (av_text b e) (get_vector x) (an_vectors ns)) (ad_vectors a) 0) as [->|[t2 ->]]; cbn [obind]; [|auto|].
  { intros k r Hk. cbn [plus]. destruct (Forall2_at _ _ _ k r (mkNames "" []) N2 Hk) as [Hn [Wr No]]. apply labelled_safe. intros m Hm. right.
    assert (Hp := nth_error_Forall2 _ _ _ _ _ None O2 Hk). unfold get_vector in Hm. rewrite Hm in Hp. destruct Hp as (_ & So & _).
    apply plain_view_ok; [exact Wr|exact No|exact (Pn _ _ _ P2 Hn)|exact So]. }
  destruct (part_texts_safe (multi_one b e x (an_multis ns)) (ad_multis a) 0) as [->|[t3 ->]]; cbn [obind]; [|auto|].
  { intros k r Hk. cbn [plus]. destruct (Forall2_at _ _ _ k r [] N3 Hk) as [Hn (Wi & Sz & Wt & No)]. apply labelled_safe. intros m Hm.
    assert (Hp := nth_error_Forall2 _ _ _ _ _ (None, None) O3 Hk). unfold get_multi in Hm. destruct (nth k (ar_multis x) (None, None)) as [[i|] [d|]]; try discriminate.
    injection Hm as <-. destruct Hp as [(_ & Si & _) (_ & Sd & _)]. apply multi_text_safe; auto; [|split; auto].
    rewrite Forall_forall in P3. apply P3. eapply nth_error_In; eauto. }
  destruct (part_texts_safe (sub_one b e addr x (an_subs ns)) (ad_subs a) 0) as [->|[t5 ->]]; cbn [obind]; [|auto|].
  { intros k s Hk. cbn [plus]. destruct (Forall2_at _ _ _ k s no_names N4 Hk) as [Hn No]. apply labelled_safe. intros y Hy.
    assert (Hp := nth_error_Forall2 _ _ _ _ _ None O5 Hk). unfold sub_part in Hp. assert (Hy' := Hy). unfold get_sub in Hy'. rewrite Hy' in Hp.
    rewrite Forall_forall in IH. apply (IH s (nth_error_In _ _ Hk) (sub_place p (fst (fst s)))); [exact No| |exact Hp|exact (F2 k s y Hk Hy)].
    rewrite Forall_forall in P4. apply P4. eapply nth_error_In; eauto. }
  right. eauto.
Qed.

(** * Archives made by builders *)
Inductive sized : adesc -> plan -> Prop := Sized a A :
  (forall k r d, nth_error (ad_structs a) k = Some r -> pl_structs A k = Some d -> s_size (tr_struct r) <= len d) ->
  (forall k s A', nth_error (ad_subs a) k = Some s -> pl_subs A k = Some A' -> sized (snd (fst s)) A') -> sized a A.
Lemma sized_new a : sized a no_plan.
Proof. constructor; intros; discriminate. Qed.
Lemma may_sized file a A o A' : may file a A o A' -> sized a A -> sized a A'.
Proof.
  induction 1; inversion 1 as [? ? S1 S2]; subst;
    try (constructor; cbn [pl_structs pl_subs pl_struct pl_vec pl_mul pl_raw pl_sub] in *; [exact S1|exact S2]).
  - constructor; [|exact S2]. intros j r' d Hj. cbn [pl_structs pl_struct]. unfold nupd. destruct (Nat.eqb_spec j k) as [->|]; [|apply S1; exact Hj].
    intros [= <-]. assert (r' = r) as -> by congruence. unfold len in *. rewrite firstn_length. lia.
  - constructor; [exact S1|]. intros j s' A1 Hj. cbn [pl_subs pl_sub]. unfold nupd. destruct (Nat.eqb_spec j k) as [->|]; [|apply S2; exact Hj].
    intros [= <-]. apply sized_new.
  - constructor; [exact S1|]. intros j s' A1 Hj. cbn [pl_subs pl_sub]. unfold nupd. destruct (Nat.eqb_spec j k) as [->|]; [|apply S2; exact Hj].
    intros [= <-]. assert (s' = s) as -> by congruence. apply IHmay. eapply S2; eauto.
Qed.
Lemma history_sized file a A ops A' : history file a A ops A' -> sized a A -> sized a A'.
Proof. induction 1; auto. intros S. apply IHhistory. eapply may_sized; eauto. Qed.
Lemma built_printable strict a : forall p A ns x, anames_ok a ns -> all_plain ns -> opened strict a p x -> shows_plan a A x -> sized a A -> printable a ns x.
Proof.
  induction a as [name schema ss vs ms rs subs IH] using adesc_deep_ind. set (a := mkArchive name schema ss vs ms rs subs) in *.
  intros p A ns x N P O Sh Sz. apply anames_ok_eq in N as (N1 & N2 & N3 & N4). apply all_plain_eq in P as (P1 & P2 & P3 & P4).
  apply opened_eq in O as (_ & O1 & O2 & O3 & _ & O5). apply shows_plan_eq in Sh as (H1 & H2 & H3 & _ & H5). inversion Sz as [? ? Z1 Z2]; subst.
  rewrite Forall_forall in P1, P2, P3, P4, IH. apply printable_eq. split; [|split; [|split]].
  - intros k r n m Hk Hn Hm. destruct (Forall2_at _ _ _ k r (mkNames "" []) N1 Hk) as [Hn' [Wr No]]. assert (nth k (an_structs ns) (mkNames "" []) = n) as E by congruence. rewrite E in No.
    assert (Hp := nth_error_Forall2 _ _ _ _ _ None O1 Hk). specialize (H1 k r Hk). unfold get_struct in Hm. destruct (nth k (ar_structs x) None) as [sl|]; [|discriminate].
    injection Hm as <-. unfold shows_bytes in H1. cbn [option_map] in H1. symmetry in H1. specialize (Z1 k r _ Hk H1). destruct Hp as (_ & So & _). rewrite len_sl_bytes in Z1 by exact So. destruct So as (S1 & S2 & S3).
    split; [exact S3|]. split; [lia|]. eapply plain_sayable; [exact No|unfold decode; apply map_length|apply P1; eapply nth_error_In; eauto].
  - intros k r n v Hk Hn Hv. destruct (Forall2_at _ _ _ k r (mkNames "" []) N2 Hk) as [Hn' [Wr No]]. assert (nth k (an_vectors ns) (mkNames "" []) = n) as E by congruence. rewrite E in No.
    assert (Hp := nth_error_Forall2 _ _ _ _ _ None O2 Hk). unfold get_vector in Hv. rewrite Hv in Hp. destruct Hp as (_ & So & _).
    split; [exact So|]. apply plain_records; [exact No|apply P2; eapply nth_error_In; eauto].
  - intros k r n v Hk Hn Hv. destruct (Forall2_at _ _ _ k r [] N3 Hk) as [Hn' (_ & _ & _ & No)]. assert (nth k (an_multis ns) [] = n) as E by congruence. rewrite E in No.
    specialize (H3 k r Hk). unfold get_multi in Hv. destruct (nth k (ar_multis x) (None, None)) as [[i|] [d|]]; try discriminate. injection Hv as <-.
    destruct (pl_muls A k) as [|l|l]; try contradiction. cbn in H3. exists (buckets (mr_types r) l). split; [exact H3|].
    apply (plain_values (mr_types r)); [exact No|apply P3; eapply nth_error_In; eauto|]. intros y z. apply (mav_shows_values _ _ _ _ _ _ _ H3).
  - intros k s n y Hk Hn Hy. destruct (Forall2_at _ _ _ k s no_names N4 Hk) as [Hn' No]. assert (nth k (an_subs ns) no_names = n) as E by congruence. rewrite E in No.
    assert (Hp := nth_error_Forall2 _ _ _ _ _ None O5 Hk). specialize (H5 k s Hk). unfold sub_part in Hp. unfold sub_shows in H5. unfold get_sub in Hy. rewrite Hy in Hp, H5.
    destruct H5 as (A' & EA & _ & H5). apply (IH s (nth_error_In _ _ Hk) (sub_place p (fst (fst s))) A'); [exact No|apply P4; eapply nth_error_In; eauto|exact Hp|exact H5|].
    exact (Z2 k s A' Hk EA).
Qed.
Lemma built_text b e b' e' b'' e'' lim a st w st' w1 ops A flags s' w2 ns addr :
  wf_archive (is_file st) a -> maps_ok w -> unused_storage st w ->
  builder_new b e a st w = (Ret (Ok st'), w1) ->
  history (is_file st) a no_plan ops A -> finished A ->
  brun b e lim a ops (new_bstate st') w1 = (Ret (flags, s'), w2) -> Forall (eq true) flags ->
  anames_ok a ns -> all_plain ns ->
  (forall x w3, open_archive b' e' a st (set_faults [] w2) = (Ret (Ok x), w3) -> exists t, archive_text b'' e'' addr a ns x = Ret t) /\
  (forall id base x, st = FileStorage id base -> fresh_open b' e' a base w2 = Ret (Ok x) -> exists t, archive_text b'' e'' addr a ns x = Ret t).
Proof.
  intros Wf M Un R Hh Fin Rr Ht N Pl.
  destruct (builder_new_ok _ b e a st w st' w1 Wf eq_refl M Un R) as (-> & S1 & _ & M1).
  destruct (brun_ok _ b e lim a ops st _ _ _ _ _ _ _ Wf eq_refl M1 S1 Hh Rr Ht) as (S2 & _ & M2).
  assert (Sz := history_sized _ _ _ _ _ Hh (sized_new a)).
  split.
  - intros x w3 Ex. assert (S3 : sim a st A s' (set_faults [] w2)).
    { eapply (sim_frame _ nothing); [exact Wf|exact S2|apply touches_frame, touches_faults|]. intros c _ []. }
    destruct (sim_opens _ a st A s' _ (PStorage st (set_faults [] w2)) Wf eq_refl S3 Fin (or_introl eq_refl)) as (P & Q & C & O).
    destruct (open_exact b' e' a st (set_faults [] w2)) as (r & w3' & E & X & Y); auto.
    { apply sim_eq in S3. tauto. }
    assert (r = Ok x) as -> by congruence. apply archive_text_ok; [exact N|]. exact (built_printable _ a _ A ns x N Pl (Y x eq_refl) (O x (Y x eq_refl)) Sz).
  - intros id base x ->.
    destruct (sim_opens _ a _ A s' w2 (PDisk base w2) Wf eq_refl S2 Fin) as (P & Q & C & O).
    { right. eauto. }
    change (fresh_open b' e' a base w2) with (fst (open_archive b' e' a (FileStorage 0 base) (reader_world w2))).
    destruct (open_exact_at b' e' a (FileStorage 0 base) (reader_world w2) (PDisk base w2)) as (r & w' & -> & X & Y); auto.
    + apply represents_disk.
    + cbn [fst]. intros [= ->]. apply archive_text_ok; [exact N|]. exact (built_printable _ a _ A ns x N Pl (Y x eq_refl) (O x (Y x eq_refl)) Sz).
Qed.

(** Vectors with any history. *)
Lemma vec_text_view b e s nm n ops data : wf_struct s -> 0 <= n -> n * s_size s + 8 <= isize_max -> vec_ops_ok s ops n ->
  obind (vec_with_len b s n) (vec_run b e s ops) = Ret data ->
  exists v, slice_ok v /\ records s (sl_bytes v) = fold_left (fun l o => list_step s o l) ops (repeat (zero_record s) (Z.to_nat n)) /\
    vec_text b e s nm data = view_text b e "Vector" s nm v.
Proof.
  intros W N0 L O R. destruct (vector_refines b e s n ops W N0 L O) as (data' & v & R' & _ & V & Sv & _ & Re & _).
  rewrite R in R'. apply ret_inj in R' as <-. exists v. split; auto. split; auto. unfold vec_text. rewrite V. reflexivity.
Qed.
