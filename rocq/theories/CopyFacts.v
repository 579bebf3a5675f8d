(** Facts about copying archives. *)
From Verif Require Import Base BaseFacts Codec CodecSpec CodecFacts Structs StructsSpec StructsFacts Views ViewsSpec ViewsFacts.
From Verif Require Import Storage PathFacts StorageSpec StorageFacts StorageMore StorageUse Writers WritersSpec HandleFacts EncodeFacts.
From Verif Require Import ElsewhereFacts ExtVecFacts ExtVecUse MultiViews MultiSpec MultiViewFacts MultiViewUse MultiVecFacts MultiVecUse.
From Verif Require Import Archives ArchiveSpec ArchiveFacts BuilderSpec BuilderFacts BuilderUse.
From Verif Require Import DirFacts BuilderProgress ReproSpec ReproFacts CopySpec.
Local Open Scope list_scope.
Local Open Scope Z_scope.

(** * Setting every field *)
Lemma decode_record_ok s m : wf_struct s -> record_ok s (decode s m).
Proof.
  intros (_ & Hf & _). unfold record_ok, decode. induction Hf as [|f fs H Hf IH]; simpl; constructor; auto.
  destruct H as (_ & Hb & _ & _ & Hs). apply field_value_in_range; [lia|exact Hs].
Qed.

Lemma record_ok_length s r : record_ok s r -> length r = length (s_fields s).
Proof. intros H. symmetry. exact (Forall2_length _ _ _ H). Qed.

Lemma record_ok_nth s r i : record_ok s r -> (i < length r)%nat ->
  in_range (f_prim (field_nth s i)) (f_bits (field_nth s i)) (nth i r 0).
Proof.
  unfold record_ok, field_nth. intros H. revert i. induction H as [|f v fs r H _ IH]; intros i Hi; simpl in *; [lia|].
  destruct i; auto. apply IH. lia.
Qed.

Lemma fill_sets_in vals o : In o (fill_sets vals) -> (fst o < length vals)%nat /\ snd o = nth (fst o) vals 0.
Proof.
  unfold fill_sets. destruct o as [i v]. cbn [fst snd]. intros H. apply (In_nth _ _ (O, 0)) in H as (n & Hn & E).
  rewrite combine_length, seq_length, Nat.min_id in Hn. rewrite combine_nth in E by apply seq_length.
  rewrite seq_nth in E by exact Hn. injection E as <- <-. auto.
Qed.

Lemma fill_sets_ok s r : record_ok s r -> sets_ok s (fill_sets r).
Proof.
  intros H. unfold sets_ok. rewrite Forall_forall. intros o Ho. apply fill_sets_in in Ho as [Hi E].
  rewrite <- (record_ok_length s r H). split; [exact Hi|]. rewrite E. apply record_ok_nth; auto.
Qed.

Lemma fill_sets_apply vals r : length vals = length r -> apply_sets (fill_sets vals) r = vals.
Proof.
  unfold fill_sets, apply_sets. intros L.
  assert (G : forall vals post pre, length vals = length post ->
    fold_left (fun r o => upd (fst o) (snd o) r) (combine (seq (length pre) (length vals)) vals) (pre ++ post) = pre ++ vals).
  { clear. induction vals as [|v vals IH]; intros post pre L; destruct post as [|p post]; try discriminate; [reflexivity|].
    cbn [length seq combine fold_left fst snd].
    assert (U : upd (length pre) v (pre ++ p :: post) = (pre ++ [v]) ++ post).
    { rewrite <- app_assoc. clear. induction pre as [|x pre IH]; [reflexivity|]. cbn [length app upd]. f_equal. exact IH. }
    rewrite U. replace (S (length pre)) with (length (pre ++ [v])) by (rewrite app_length; simpl; lia).
    rewrite IH by (simpl in L; lia). rewrite <- app_assoc. reflexivity. }
  exact (G vals r [] L).
Qed.

(** fill_from makes the setter calls [fill_sets]. *)
Lemma fill_from_sets b e s m other : wf_struct s -> bytes_ok other -> s_size s <= len other ->
  fill_from b e s m other = run_sets b e s (fill_sets (decode s other)) m.
Proof.
  intros Wf B L. unfold fill_from, fill_sets, decode. rewrite map_length.
  set (g := fun f => field_value (f_prim f) other (f_off f) (f_bits f)).
  assert (G : forall fs pre m, s_fields s = pre ++ fs ->
    fill_fields b e s fs m other = run_sets b e s (combine (seq (length pre) (length fs)) (map g fs)) m).
  { induction fs as [|f fs IH]; intros pre m0 E; [reflexivity|].
    cbn [fill_fields length seq map combine run_sets].
    assert (W : wf_field (s_size s) f).
    { destruct Wf as (_ & W & _). rewrite E in W. apply Forall_app in W as [_ W]. inversion W; auto. }
    rewrite (get_field_ok b e s) by auto. cbn [obind]. fold (g f).
    assert (Ef : field_nth s (length pre) = f).
    { unfold field_nth. rewrite E, app_nth2, Nat.sub_diag by lia. reflexivity. }
    rewrite Ef. destruct (set_field b e s f (g f) m0) as [m'| | |]; cbn [obind]; auto.
    rewrite (IH (pre ++ [f]) m') by (rewrite E, <- app_assoc; reflexivity). rewrite app_length. cbn [length].
    rewrite Nat.add_1_r. reflexivity. }
  exact (G (s_fields s) [] m eq_refl).
Qed.

(** * Plans that come from a history *)
Inductive fits : adesc -> plan -> Prop := Fits a A :
  (forall k r d, nth_error (ad_structs a) k = Some r -> pl_structs A k = Some d ->
     bytes_ok d /\ len d = Z.max 0 (s_size (tr_struct r)) /\ s_size (tr_struct r) + 16 <= isize_max) ->
  (forall k r, nth_error (ad_vectors a) k = Some r ->
     match pl_vecs A k with
     | VUnset => True
     | VSet d => len d + 16 <= isize_max
     | VOpen l | VClosed l => Z.of_nat (length l) * s_size (tr_struct r) + 16 <= isize_max
     end) ->
  (forall k r, nth_error (ad_multis a) k = Some r ->
     match pl_muls A k with
     | MUnset => True
     | MOpen l | MClosed l => Forall (items_ok (mr_types r)) l /\
         (l = [] \/ buckets_size (mr_types r) l < 2 ^ mr_bits r /\ buckets_size (mr_types r) l + 16 <= isize_max /\
           (Z.of_nat (length l) + 1) * mr_size r + 16 <= isize_max)
     end) ->
  (forall k r d, nth_error (ad_raws a) k = Some r -> pl_raws A k = Some d -> data_ok d) ->
  (forall k s A', nth_error (ad_subs a) k = Some s -> pl_subs A k = Some A' -> fits (snd (fst s)) A') ->
  fits a A.
Lemma fits_new a : fits a no_plan.
Proof. constructor; simpl; auto; discriminate. Qed.
Lemma may_fits file a A o A' : may file a A o A' -> fits a A -> fits a A'.
Proof.
  induction 1; inversion 1 as [? ? F1 F2 F3 F4 F5]; subst;
    constructor; cbn [pl_structs pl_vecs pl_muls pl_raws pl_subs pl_struct pl_vec pl_mul pl_raw pl_sub] in *; auto.
  - intros j r' d Hj. unfold nupd. destruct (Nat.eqb_spec j k) as [->|]; [|apply F1; exact Hj].
    intros [= <-]. assert (r' = r) as -> by congruence. split; [now apply bytes_ok_firstn|]. split; [|assumption].
    unfold len in *. rewrite firstn_length. lia.
  - intros j r' Hj. unfold nupd. destruct (Nat.eqb_spec j k) as [->|]; [|exact (F2 j r' Hj)].
    rewrite len_sl_bytes by assumption. assumption.
  - intros j r' Hj. unfold nupd. destruct (Nat.eqb_spec j k) as [->|]; [|exact (F2 j r' Hj)].
    cbn [length]. unfold isize_max. lia.
  - intros j r' Hj. unfold nupd. destruct (Nat.eqb_spec j k) as [->|]; [|exact (F2 j r' Hj)].
    assert (r' = r) as -> by congruence. rewrite app_length. cbn [length]. lia.
  - intros j r' Hj. unfold nupd. destruct (Nat.eqb_spec j k) as [->|]; [|exact (F2 j r' Hj)].
    specialize (F2 k r' Hj). rewrite H0 in F2. exact F2.
  - intros j r' Hj. unfold nupd. destruct (Nat.eqb_spec j k) as [->|]; [|exact (F3 j r' Hj)]. split; auto.
  - intros j r' Hj. unfold nupd. destruct (Nat.eqb_spec j k) as [->|]; [|exact (F3 j r' Hj)].
    assert (r' = r) as -> by congruence. specialize (F3 k r Hj). rewrite H0 in F3. destruct F3 as [I _].
    split; [apply Forall_app; auto|]. right. rewrite app_length. cbn [length]. split; [auto|split; [auto|lia]].
  - intros j r' Hj. unfold nupd. destruct (Nat.eqb_spec j k) as [->|]; [|exact (F3 j r' Hj)].
    specialize (F3 k r' Hj). rewrite H0 in F3. exact F3.
  - intros j r' d' Hj. unfold nupd. destruct (Nat.eqb_spec j k) as [->|]; [|exact (F4 j r' d' Hj)]. intros [= <-]. assumption.
  - intros j s' A1 Hj. unfold nupd. destruct (Nat.eqb_spec j k) as [->|]; [|apply F5; exact Hj].
    intros [= <-]. apply fits_new.
  - intros j s' A1 Hj. unfold nupd. destruct (Nat.eqb_spec j k) as [->|]; [|apply F5; exact Hj].
    intros [= <-]. assert (s' = s) as -> by congruence. apply IHmay. eapply F5; eauto.
Qed.
Lemma history_fits file a A ops A' : history file a A ops A' -> fits a A -> fits a A'.
Proof. induction 1; auto. intros F. apply IHhistory. eapply may_fits; eauto. Qed.

(** * Calls on one resource *)
Lemma history_app file a A ops A' : history file a A ops A' -> forall ops' A'', history file a A' ops' A'' -> history file a A (ops ++ ops') A''.
Proof. induction 1; intros; [assumption|]. cbn [app]. econstructor; eauto. Qed.
Lemma history_one file a A o A' : may file a A o A' -> history file a A [o] A'.
Proof. intros. econstructor; [eassumption|constructor]. Qed.

(** Only one kind of resource changed. *)
Definition keep (i : nat) (A A' : plan) : Prop :=
  (i <> 0%nat -> pl_structs A' = pl_structs A) /\ (i <> 1%nat -> pl_vecs A' = pl_vecs A) /\
  (i <> 2%nat -> pl_muls A' = pl_muls A) /\ (i <> 3%nat -> pl_raws A' = pl_raws A) /\ (i <> 4%nat -> pl_subs A' = pl_subs A).
Lemma keep_refl i A : keep i A A.
Proof. repeat split. Qed.
Lemma keep_trans i A B C : keep i A B -> keep i B C -> keep i A C.
Proof.
  intros (H1 & H2 & H3 & H4 & H5) (G1 & G2 & G3 & G4 & G5). repeat split; intros N.
  - now rewrite G1, H1. - now rewrite G2, H2. - now rewrite G3, H3. - now rewrite G4, H4. - now rewrite G5, H5.
Qed.
Lemma keep_struct k v A : keep 0 A (pl_struct k v A). Proof. repeat split; congruence. Qed.
Lemma keep_vec k v A : keep 1 A (pl_vec k v A). Proof. repeat split; congruence. Qed.
Lemma keep_mul k v A : keep 2 A (pl_mul k v A). Proof. repeat split; congruence. Qed.
Lemma keep_raw k v A : keep 3 A (pl_raw k v A). Proof. repeat split; congruence. Qed.
Lemma keep_sub k v A : keep 4 A (pl_sub k v A). Proof. repeat split; congruence. Qed.
Lemma nupd_same {V} k (v : V) f : nupd k v f k = v.
Proof. unfold nupd. now rewrite Nat.eqb_refl. Qed.
Lemma nupd_other {V} k (v : V) f j : j <> k -> nupd k v f j = f j.
Proof. intros H. unfold nupd. destruct (Nat.eqb_spec j k); congruence. Qed.

(** One resource after the other. *)
Lemma copy_loop {R X} a (one : nat -> R -> outcome (list bop)) (get : plan -> nat -> X) (unset : X)
    (good : nat -> R -> X -> Prop) (i : nat) (all : list R) :
  (forall k r A, nth_error all k = Some r -> get A k = unset -> exists ops A', one k r = Ret ops /\ history true a A ops A' /\
     good k r (get A' k) /\ (forall j, j <> k -> get A' j = get A j) /\ keep i A A') ->
  forall l pre A, all = pre ++ l -> (forall j, (length pre <= j)%nat -> get A j = unset) ->
  (forall j r, (j < length pre)%nat -> nth_error all j = Some r -> good j r (get A j)) ->
  exists ops A', copy_each one (length pre) l = Ret ops /\ history true a A ops A' /\
    (forall j r, nth_error all j = Some r -> good j r (get A' j)) /\ keep i A A'.
Proof.
  intros One. induction l as [|r l IH]; intros pre A E U G.
  - rewrite app_nil_r in E. subst pre. exists [], A. split; [reflexivity|]. split; [constructor|]. split; [|apply keep_refl].
    intros j r Hj. apply G; auto. apply nth_error_Some. congruence.
  - assert (Hr : nth_error all (length pre) = Some r) by (rewrite E, nth_error_app2, Nat.sub_diag by lia; reflexivity).
    destruct (One _ r A Hr (U _ (Nat.le_refl _))) as (o & A1 & Eo & Ho & Gk & Oth & K1).
    destruct (IH (pre ++ [r]) A1) as (os & A2 & Eos & Hos & G2 & K2).
    + rewrite <- app_assoc. exact E.
    + rewrite app_length. cbn [length]. intros j Hj. rewrite Oth by lia. apply U. lia.
    + rewrite app_length. cbn [length]. intros j r' Hj Hr'. destruct (Nat.eq_dec j (length pre)) as [->|Ne].
      * assert (r' = r) as -> by congruence. exact Gk.
      * rewrite Oth by exact Ne. apply G; auto. lia.
    + rewrite app_length in Eos. cbn [length] in Eos. rewrite Nat.add_1_r in Eos.
      exists (o ++ os), A2. split; [cbn [copy_each]; rewrite Eo; cbn [obind]; rewrite Eos; reflexivity|].
      split; [eapply history_app; eauto|]. split; [exact G2|eapply keep_trans; eauto].
Qed.

Lemma copy_struct_ok b e fields a A x k r B :
  nth_error (ad_structs a) k = Some r -> (forall sl, nth k (ar_structs x) None = Some sl -> slice_ok sl) ->
  shows_bytes (pl_structs A k) (nth k (ar_structs x) None) -> fits a A -> copyable fields a A -> pl_structs B k = None ->
  exists ops B', copy_struct b e fields x k r = Ret ops /\ history true a B ops B' /\ pl_structs B' k = pl_structs A k /\
    (forall j, j <> k -> pl_structs B' j = pl_structs B j) /\ keep 0 B B'.
Proof.
  intros Hk So Sh F C U. unfold copy_struct, get_struct, shows_bytes in *.
  destruct (nth k (ar_structs x) None) as [sl|] eqn:Esl; cbn [option_map] in *.
  2: { exists [], B. split; [reflexivity|]. split; [constructor|]. split; [congruence|]. split; [auto|apply keep_refl]. }
  specialize (So sl eq_refl). assert (So' := So). destruct So' as (S1 & S2 & S3).
  inversion F as [? ? F1 _ _ _ _]; subst. destruct (F1 k r _ Hk (eq_sym Sh)) as (B1 & L1 & M1).
  rewrite len_sl_bytes in L1 by exact So.
  assert (Fin : forall m, bytes_ok m -> s_size (tr_struct r) <= len m -> firstn (Z.to_nat (s_size (tr_struct r))) m = sl_bytes sl ->
    exists B', history true a B [BStruct k m] B' /\ pl_structs B' k = pl_structs A k /\
    (forall j, j <> k -> pl_structs B' j = pl_structs B j) /\ keep 0 B B').
  { intros m Bm Lm Em. eexists. split; [apply history_one, may_struct; eauto|]. cbn [pl_structs pl_struct]. rewrite nupd_same, Em.
    split; [exact Sh|]. split; [intros; now apply nupd_other|apply keep_struct]. }
  destruct fields.
  - inversion C as [? ? C1 _ _]; subst. destruct (C1 k r _ eq_refl Hk (eq_sym Sh)) as [W En].
    assert (Ls : 0 < s_size (tr_struct r)) by apply W.
    rewrite fill_from_sets by (auto; lia). set (vals := decode (tr_struct r) (sl_mem sl)).
    assert (Ev : decode (tr_struct r) (sl_bytes sl) = vals).
    { unfold sl_bytes. apply decode_firstn; [exact W|lia]. }
    assert (Rv : record_ok (tr_struct r) vals) by (apply decode_record_ok; exact W).
    unfold sb_new, PADDING_SIZE. rewrite <- zeros_app by lia.
    destruct (run_sets_good b e (tr_struct r) (fill_sets vals) W (fill_sets_ok _ _ Rv) (zeros (s_size (tr_struct r))) (zeros 8) (zero_record (tr_struct r))) as (m' & -> & G & D').
    { apply bytes_ok_zeros. } { apply good_zero; auto. }
    rewrite fill_sets_apply in G by (rewrite (record_ok_length _ _ Rv); unfold zero_record; symmetry; apply map_length).
    rewrite <- Ev in G. assert (Em : m' = sl_bytes sl) by (eapply encodes_fun; eauto). subst m'.
    cbn [obind]. unfold sb_get. eexists. 
    destruct (Fin (sl_bytes sl ++ zeros 8)) as (B' & H).
    + apply bytes_ok_app. split; [exact B1|apply bytes_ok_zeros].
    + rewrite len_app, len_sl_bytes by exact So. rewrite len_zeros by lia. lia.
    + assert (Hl : Z.to_nat (s_size (tr_struct r)) = length (sl_bytes sl)) by (assert (X := len_sl_bytes sl So); unfold len in X; lia).
      rewrite Hl, firstn_app, Nat.sub_diag, firstn_all. apply app_nil_r.
    + exists B'. split; [reflexivity|exact H].
  - destruct (Fin (sl_mem sl)) as (B' & H); [exact S3|lia| |].
    + unfold sl_bytes. destruct (Z.le_gt_cases 0 (s_size (tr_struct r))); [f_equal; lia|].
      replace (sl_len sl) with 0 by lia. now replace (Z.to_nat (s_size (tr_struct r))) with 0%nat by lia.
    + eexists _, B'. split; [reflexivity|exact H].
Qed.

Lemma vec_grows_ok a k r : nth_error (ad_vectors a) k = Some r -> wf_struct (tr_struct r) -> forall recs l B,
  pl_vecs B k = VOpen l -> Forall (record_ok (tr_struct r)) recs ->
  Z.of_nat (length l + length recs) * s_size (tr_struct r) + 16 <= isize_max ->
  exists B', history true a B (map (fun vals => BVecGrow k (fill_sets vals)) recs) B' /\ pl_vecs B' k = VOpen (l ++ map fill_sets recs) /\
    (forall j, j <> k -> pl_vecs B' j = pl_vecs B j) /\ keep 1 B B'.
Proof.
  intros Hk W. destruct W as (Sp & _). induction recs as [|v recs IH]; intros l B O R L.
  - exists B. cbn [map]. rewrite app_nil_r. split; [constructor|]. split; [exact O|]. split; [auto|apply keep_refl].
  - apply Forall_cons_iff in R as [R1 R]. cbn [length] in L.
    destruct (IH (l ++ [fill_sets v]) (pl_vec k (VOpen (l ++ [fill_sets v])) B)) as (B' & H & O' & Ot & K).
    + cbn [pl_vecs pl_vec]. apply nupd_same.
    + exact R.
    + rewrite app_length. cbn [length]. replace (length l + 1 + length recs)%nat with (length l + S (length recs))%nat by lia. exact L.
    + exists B'. split; [|split; [|split]].
      * cbn [map]. econstructor; [|exact H]. eapply may_vec_grow; [exact Hk|exact O|apply fill_sets_ok; exact R1|nia].
      * cbn [map]. rewrite O', <- app_assoc. reflexivity.
      * intros j Hj. rewrite Ot by exact Hj. cbn [pl_vecs pl_vec]. now apply nupd_other.
      * eapply keep_trans; [apply keep_vec|exact K].
Qed.

Lemma elements_fill s recs : Forall (record_ok s) recs -> elements s (map fill_sets recs) = recs.
Proof.
  unfold elements. rewrite map_map. induction 1 as [|v recs H _ IH]; cbn [map]; [reflexivity|]. f_equal; [|exact IH].
  apply fill_sets_apply. rewrite (record_ok_length _ _ H). unfold zero_record. symmetry. apply map_length.
Qed.

Lemma records_ok s d : wf_struct s -> Forall (record_ok s) (records s d).
Proof.
  intros W. apply (proj2 (Forall_nth _ _)). intros i z Hi. rewrite records_length in Hi. rewrite records_nth by exact Hi.
  apply decode_record_ok. exact W.
Qed.

Lemma encodes_total s ms l : Forall2 (encodes s) ms l -> len (concat ms) = Z.of_nat (length l) * s_size s.
Proof.
  induction 1 as [|m r ms l (_ & L & _) _ IH]; [reflexivity|]. cbn [concat]. rewrite len_app, IH, L. simpl length. lia.
Qed.

Lemma copy_vector_ok b e fields a A x k r B :
  nth_error (ad_vectors a) k = Some r -> wf_struct (tr_struct r) -> (forall sl, nth k (ar_vectors x) None = Some sl -> slice_ok sl) ->
  shows_vec r (pl_vecs A k) (nth k (ar_vectors x) None) -> fits a A -> copyable fields a A -> pl_vecs B k = VUnset ->
  exists ops B', copy_vector b e fields x k r = Ret ops /\ history true a B ops B' /\ same_vec (tr_struct r) (pl_vecs A k) (pl_vecs B' k) /\
    (forall j, j <> k -> pl_vecs B' j = pl_vecs B j) /\ keep 1 B B'.
Proof.
  intros Hk W So Sh F C U. unfold copy_vector, get_vector in *. assert (Sp : 0 < s_size (tr_struct r)) by apply W.
  destruct (nth k (ar_vectors x) None) as [sl|] eqn:Esl.
  2: { exists [], B. split; [reflexivity|]. split; [constructor|]. rewrite U. destruct (pl_vecs A k); try contradiction.
    split; [exact I|]. split; [auto|apply keep_refl]. }
  specialize (So sl eq_refl). inversion F as [? ? _ F2 _ _ _]; subst. specialize (F2 k r Hk).
  assert (Sz : sl_len sl + 16 <= isize_max).
  { rewrite <- (len_sl_bytes sl So). destruct (pl_vecs A k) as [|d|l|l]; try contradiction; cbn [shows_vec] in Sh.
    - now rewrite Sh.
    - destruct Sh as [(ms & -> & Fm) _]. rewrite (encodes_total _ _ _ Fm). unfold elements. rewrite map_length. exact F2. }
  destruct fields.
  - set (recs := records (tr_struct r) (sl_bytes sl)).
    assert (Rl : length recs = Z.to_nat (av_len (tr_struct r) sl)).
    { unfold recs. rewrite records_length, len_sl_bytes by exact So. reflexivity. }
    destruct (av_take_spec b e (tr_struct r) (Z.to_nat (av_len (tr_struct r) sl)) sl W So) as (els & -> & G). cbn [obind].
    fold recs in G. rewrite <- Rl, firstn_all in G. rewrite G. cbn [obind].
    assert (Ro : Forall (record_ok (tr_struct r)) recs) by (apply records_ok; exact W).
    assert (Ln : Z.of_nat (length recs) * s_size (tr_struct r) <= sl_len sl).
    { rewrite Rl. unfold av_len. assert (0 <= sl_len sl / s_size (tr_struct r)) by (apply Z.div_pos; [destruct So; lia|exact Sp]).
      assert (X := Z.mul_div_le (sl_len sl) (s_size (tr_struct r)) Sp). lia. }
    destruct (vec_grows_ok a k r Hk W recs [] (pl_vec k (VOpen []) B)) as (B' & H & O' & Ot & K).
    + cbn [pl_vecs pl_vec]. apply nupd_same.
    + exact Ro.
    + cbn [length plus]. lia.
    + eexists _, (pl_vec k (VClosed (map fill_sets recs)) B'). split; [reflexivity|]. split; [|split; [|split]].
      * econstructor; [eapply may_vec_start; eauto|]. eapply history_app; [exact H|]. apply history_one. eapply may_vec_close; [exact Hk|exact O'].
      * cbn [pl_vecs pl_vec]. rewrite nupd_same. destruct (pl_vecs A k) as [|d|l|l] eqn:EA; try contradiction; cbn [shows_vec same_vec] in *.
        -- rewrite elements_fill by exact Ro. inversion C as [? ? _ C2 _]; subst. unfold recs. apply (C2 k r _ eq_refl Hk EA).
        -- rewrite elements_fill by exact Ro. symmetry. apply Sh.
      * intros j Hj. cbn [pl_vecs pl_vec]. rewrite nupd_other by exact Hj. rewrite Ot by exact Hj. cbn [pl_vecs pl_vec]. now apply nupd_other.
      * eapply keep_trans; [apply keep_vec|]. eapply keep_trans; [exact K|]. apply keep_vec.
  - eexists _, _. split; [reflexivity|]. split; [apply history_one; eapply may_vector; eauto|]. split; [|split].
    + cbn [pl_vecs pl_vec]. rewrite nupd_same. destruct (pl_vecs A k) as [|d|l|l] eqn:EA; try contradiction; cbn [shows_vec same_vec] in *; [auto|apply Sh].
    + intros j Hj. cbn [pl_vecs pl_vec]. now apply nupd_other.
    + apply keep_vec.
Qed.

Lemma items_size_nonneg ts items : items_ok ts items -> wf_vdesc ts -> 0 <= items_size ts items.
Proof.
  intros H W. induction H as [|[t y] items [Ht _] _ IH]; cbn [items_size fst]; [lia|].
  destruct (wf_vdesc_nth ts t W Ht) as [_ (S & _)]. lia.
Qed.
Lemma buckets_size_app ts l l' : buckets_size ts (l ++ l') = buckets_size ts l + buckets_size ts l'.
Proof. induction l as [|y l IH]; cbn [app buckets_size]; lia. Qed.
Lemma buckets_size_nonneg ts l : Forall (items_ok ts) l -> wf_vdesc ts -> 0 <= buckets_size ts l.
Proof. intros H W. induction H as [|y l H _ IH]; cbn [buckets_size]; [lia|]. assert (X := items_size_nonneg ts y H W). lia. Qed.

Lemma mul_grows_ok a k r : nth_error (ad_multis a) k = Some r -> wf_vdesc (mr_types r) -> 0 <= mr_size r -> forall new l B,
  pl_muls B k = MOpen l -> Forall (items_ok (mr_types r)) new ->
  (new <> [] -> buckets_size (mr_types r) (l ++ new) < 2 ^ mr_bits r /\ buckets_size (mr_types r) (l ++ new) + 16 <= isize_max /\
     (Z.of_nat (length (l ++ new)) + 1) * mr_size r + 16 <= isize_max) ->
  exists B', history true a B (map (BMulGrow k) new) B' /\ pl_muls B' k = MOpen (l ++ new) /\
    (forall j, j <> k -> pl_muls B' j = pl_muls B j) /\ keep 2 B B'.
Proof.
  intros Hk W Ps. induction new as [|v new IH]; intros l B O R L.
  - exists B. cbn [map]. rewrite app_nil_r. split; [constructor|]. split; [exact O|]. split; [auto|apply keep_refl].
  - apply Forall_cons_iff in R as [R1 R]. destruct (L ltac:(discriminate)) as (L1 & L2 & L3).
    assert (X := buckets_size_nonneg _ _ R W). 
    assert (Eq1 : l ++ v :: new = (l ++ [v]) ++ new) by (rewrite <- app_assoc; reflexivity). rewrite Eq1 in *.
    destruct (IH (l ++ [v]) (pl_mul k (MOpen (l ++ [v])) B)) as (B' & H & O' & Ot & K).
    + cbn [pl_muls pl_mul]. apply nupd_same.
    + exact R.
    + auto.
    + rewrite buckets_size_app in L1, L2. rewrite app_length in L3.
      exists B'. split; [|split; [|split]].
      * cbn [map]. econstructor; [|exact H]. eapply may_mul_grow; [exact Hk|exact O|exact R1|lia|lia|].
        rewrite app_length in L3. cbn [length] in L3. nia.
      * exact O'.
      * intros j Hj. rewrite Ot by exact Hj. cbn [pl_muls pl_mul]. now apply nupd_other.
      * eapply keep_trans; [apply keep_mul|exact K].
Qed.

(** The copied items. *)
Lemma copied_items ts items : wf_vdesc ts -> items_ok ts items ->
  let new := map fill_item (map (item_value ts) items) in
  items_ok ts new /\ items_size ts new = items_size ts items /\ map (item_value ts) new = map (item_value ts) items.
Proof.
  intros W H. induction H as [|[t sets] items [Ht Hs] _ IH]; cbn zeta in *; cbn [map items_size] in *; [split; [constructor|auto]|].
  destruct IH as (I1 & I2 & I3). destruct (wf_vdesc_nth ts t W Ht) as [_ Ws]. cbn [fst snd] in Ht, Hs.
  assert (R : record_ok (v_struct ts t) (apply_sets sets (zero_record (v_struct ts t)))).
  { apply record_ok_sets; [exact Hs|]. apply record_ok_zero. exact Ws. }
  split; [|split].
  - constructor; [|exact I1]. cbn [fill_item item_value fst snd]. split; [exact Ht|]. apply fill_sets_ok. exact R.
  - rewrite I2. reflexivity.
  - f_equal; [|exact I3]. unfold item_value, fill_item. cbn [fst snd]. f_equal. apply fill_sets_apply.
    rewrite (record_ok_length _ _ R). unfold zero_record. symmetry. apply map_length.
Qed.
Lemma copied_buckets ts l : wf_vdesc ts -> Forall (items_ok ts) l ->
  let new := map (map fill_item) (buckets ts l) in
  Forall (items_ok ts) new /\ buckets_size ts new = buckets_size ts l /\ buckets ts new = buckets ts l /\ length new = length l.
Proof.
  intros W H. cbn zeta. unfold buckets. rewrite !map_length. induction H as [|items l H _ IH]; [cbn; auto|].
  destruct (copied_items ts items W H) as (C1 & C2 & C3). destruct IH as (I1 & I2 & I3 & _).
  cbn [map buckets_size]. split; [constructor; assumption|]. split; [lia|]. split; [|reflexivity]. f_equal; assumption.
Qed.

Lemma copy_multi_ok b e a A x k r B :
  nth_error (ad_multis a) k = Some r -> wf_vdesc (mr_types r) -> wf_struct (index_struct (mr_size r) (mr_bits r)) ->
  shows_mul r (pl_muls A k) (nth k (ar_multis x) (None, None)) -> fits a A -> pl_muls B k = MUnset ->
  exists ops B', copy_multi b e x k r = Ret ops /\ history true a B ops B' /\ same_mul (mr_types r) (pl_muls A k) (pl_muls B' k) /\
    (forall j, j <> k -> pl_muls B' j = pl_muls B j) /\ keep 2 B B'.
Proof.
  intros Hk W Wi Sh F U. unfold copy_multi, get_multi in *. assert (Sp : 0 < mr_size r) by apply Wi.
  inversion F as [? ? _ _ F3 _ _]; subst. specialize (F3 k r Hk).
  destruct (nth k (ar_multis x) (None, None)) as [[i|] [d|]] eqn:Esl; destruct (pl_muls A k) as [|l|l] eqn:EA; try contradiction; cbn [shows_mul] in Sh.
  2: { exists [], B. split; [reflexivity|]. split; [constructor|]. rewrite U. split; [exact I|]. split; [auto|apply keep_refl]. }
  destruct F3 as [Io Li]. destruct (copied_buckets (mr_types r) l W Io) as (N1 & N2 & N3 & N4).
  rewrite (mav_shows_len b _ _ Wi _ _ _ Sh). cbn [obind]. rewrite Nat2Z.id.
  destruct (mav_shows_take b e (mr_size r) (mr_bits r) Wi (mr_types r) (length (buckets (mr_types r) l)) W _ _ Sh) as (ls & -> & G). cbn [obind]. rewrite G, firstn_all. cbn [obind].
  set (new := map (map fill_item) (buckets (mr_types r) l)) in *.
  assert (Em : map (fun l0 => BMulGrow k (map fill_item l0)) (buckets (mr_types r) l) = map (BMulGrow k) new) by (unfold new; now rewrite map_map).
  rewrite Em.
  destruct (mul_grows_ok a k r Hk W ltac:(lia) new [] (pl_mul k (MOpen []) B)) as (B' & H & O' & Ot & K).
  - cbn [pl_muls pl_mul]. apply nupd_same.
  - exact N1.
  - intros Ne. cbn [app]. rewrite N2, N4. destruct Li as [->|Li]; [|exact Li]. exfalso. apply Ne. reflexivity.
  - eexists _, (pl_mul k (MClosed new) B'). split; [reflexivity|]. split; [|split; [|split]].
    + econstructor; [eapply may_mul_start; eauto|]. eapply history_app; [exact H|]. apply history_one. eapply may_mul_close; [exact Hk|exact O'].
    + cbn [pl_muls pl_mul]. rewrite nupd_same. cbn [same_mul]. symmetry. exact N3.
    + intros j Hj. cbn [pl_muls pl_mul]. rewrite nupd_other by exact Hj. rewrite Ot by exact Hj. cbn [pl_muls pl_mul]. now apply nupd_other.
    + eapply keep_trans; [apply keep_mul|]. eapply keep_trans; [exact K|]. apply keep_mul.
Qed.

Lemma copy_raw_ok a A x k r B : nth_error (ad_raws a) k = Some r ->
  shows_bytes (pl_raws A k) (nth k (ar_raws x) None) -> fits a A -> pl_raws B k = None ->
  exists ops B', copy_raw x k r = Ret ops /\ history true a B ops B' /\ pl_raws B' k = pl_raws A k /\
    (forall j, j <> k -> pl_raws B' j = pl_raws B j) /\ keep 3 B B'.
Proof.
  intros Hk Sh F U. unfold copy_raw, get_raw, shows_bytes in *. inversion F as [? ? _ _ _ F4 _]; subst.
  destruct (nth k (ar_raws x) None) as [sl|]; cbn [option_map] in Sh.
  - eexists _, _. split; [reflexivity|]. split; [apply history_one; eapply may_raw; eauto|]. cbn [pl_raws pl_raw]. rewrite nupd_same.
    split; [exact Sh|]. split; [intros; now apply nupd_other|apply keep_raw].
  - exists [], B. split; [reflexivity|]. split; [constructor|]. split; [congruence|]. split; [auto|apply keep_refl].
Qed.

(** * Sub-archives *)
Lemma history_sub a k s : nth_error (ad_subs a) k = Some s -> forall C ops C', history true (snd (fst s)) C ops C' ->
  forall B, pl_subs B k = Some C -> exists B', history true a B (map (BSub k) ops) B' /\ pl_subs B' k = Some C' /\
    (forall j, j <> k -> pl_subs B' j = pl_subs B j) /\ keep 4 B B'.
Proof.
  intros Hk C ops C'. induction 1 as [C|C o C1 ops C2 M H IH]; intros B E.
  - exists B. split; [constructor|]. split; [exact E|]. split; [auto|apply keep_refl].
  - destruct (IH (pl_sub k (Some C1) B)) as (B' & H' & E' & Ot & K); [apply nupd_same|].
    exists B'. split; [cbn [map]; econstructor; [eapply may_sub; eauto|exact H']|]. split; [exact E'|]. split.
    + intros j Hj. rewrite Ot by exact Hj. cbn [pl_subs pl_sub]. now apply nupd_other.
    + eapply keep_trans; [apply keep_sub|exact K].
Qed.

Definition copy_sub b e fields x (k : nat) (s : string * adesc * bool) : outcome (list bop) :=
  match get_sub x k with
  | None => Ret []
  | Some y => o <- copy_ops b e fields (snd (fst s)) y ;; Ret (BSubNew k :: map (BSub k) o)
  end.
Lemma copy_ops_eq b e fields a x : copy_ops b e fields a x =
  (o1 <- copy_each (copy_struct b e fields x) 0 (ad_structs a) ;;
   o2 <- copy_each (copy_vector b e fields x) 0 (ad_vectors a) ;;
   o3 <- copy_each (copy_multi b e x) 0 (ad_multis a) ;;
   o4 <- copy_each (copy_raw x) 0 (ad_raws a) ;;
   o5 <- copy_each (copy_sub b e fields x) 0 (ad_subs a) ;;
   Ret (o1 ++ o2 ++ o3 ++ o4 ++ o5)).
Proof.
  destruct a as [name schema ss vs ms rs subs]. cbn [copy_ops ad_structs ad_vectors ad_multis ad_raws ad_subs].
  match goal with |- context [obind (?G 0%nat subs) _] => match G with copy_each _ => fail 1 | _ => set (go := G) end end.
  assert (E : forall l k, go k l = copy_each (copy_sub b e fields x) k l).
  { induction l as [|[[n a'] o] l IH]; intros k; [reflexivity|]. cbn [go copy_each copy_sub fst snd]. unfold copy_sub. cbn [fst snd].
    rewrite IH. reflexivity. }
  rewrite E. reflexivity.
Qed.

Lemma copy_plan b e fields strict a : forall p A x, wf_archive true a -> opened strict a p x -> shows_plan a A x -> fits a A ->
  whole a A -> copyable fields a A ->
  exists ops A', copy_ops b e fields a x = Ret ops /\ history true a no_plan ops A' /\ same_plan a A A'.
Proof.
  induction a as [name schema ss vs ms rs subs IH] using adesc_deep_ind. set (a := mkArchive name schema ss vs ms rs subs) in *.
  intros p A x Wf O Sh F Wh C. rewrite copy_ops_eq.
  apply opened_eq in O as (_ & O1 & O2 & O3 & O4 & O5). apply shows_plan_eq in Sh as (H1 & H2 & H3 & H4 & H5).
  apply wf_eq in Wf as (_ & _ & _ & _ & W2 & W3 & _ & _ & W5). rewrite Forall_forall in W2, W3, W5, IH.
  destruct (copy_loop a (copy_struct b e fields x) pl_structs None (fun k r o => o = pl_structs A k) 0 (ad_structs a)) with (l := ad_structs a) (pre := @nil typed_res) (A := no_plan)
    as (o1 & A1 & E1 & R1 & G1 & K1); auto.
  { intros k r B Hk U. apply copy_struct_ok with (A := A); auto; [|exact (H1 k r Hk)].
    intros sl E. assert (Hp := nth_error_Forall2 _ _ _ _ _ None O1 Hk). rewrite E in Hp. apply Hp. }
  { intros j r Hj. inversion Hj. }
  destruct (copy_loop a (copy_vector b e fields x) pl_vecs VUnset (fun k r o => same_vec (tr_struct r) (pl_vecs A k) o) 1 (ad_vectors a)) with (l := ad_vectors a) (pre := @nil typed_res) (A := A1)
    as (o2 & A2 & E2 & R2 & G2 & K2); auto.
  { intros k r B Hk U. apply copy_vector_ok; auto.
    - apply (W2 r). eapply nth_error_In; eauto.
    - intros sl E. assert (Hp := nth_error_Forall2 _ _ _ _ _ None O2 Hk). rewrite E in Hp. apply Hp. }
  { intros j _. destruct K1 as (_ & K & _). rewrite K by discriminate. reflexivity. }
  { intros j r Hj. inversion Hj. }
  destruct (copy_loop a (copy_multi b e x) pl_muls MUnset (fun k r o => same_mul (mr_types r) (pl_muls A k) o) 2 (ad_multis a)) with (l := ad_multis a) (pre := @nil multi_res) (A := A2)
    as (o3 & A3 & E3 & R3 & G3 & K3); auto.
  { intros k r B Hk U. destruct (W3 r) as (_ & _ & _ & Wi & Wt & _); [eapply nth_error_In; eauto|]. apply copy_multi_ok; auto. }
  { intros j _. destruct K1 as (_ & _ & K & _), K2 as (_ & _ & K' & _). rewrite K', K by discriminate. reflexivity. }
  { intros j r Hj. inversion Hj. }
  destruct (copy_loop a (copy_raw x) pl_raws None (fun k r o => o = pl_raws A k) 3 (ad_raws a)) with (l := ad_raws a) (pre := @nil raw_res) (A := A3)
    as (o4 & A4 & E4 & R4 & G4 & K4); auto.
  { intros k r B Hk U. apply copy_raw_ok; auto. exact (H4 k r Hk). }
  { intros j _. destruct K1 as (_ & _ & _ & K & _), K2 as (_ & _ & _ & K' & _), K3 as (_ & _ & _ & K'' & _). rewrite K'', K', K by discriminate. reflexivity. }
  { intros j r Hj. inversion Hj. }
  destruct (copy_loop a (copy_sub b e fields x) pl_subs None (fun k s o => match pl_subs A k, o with None, None => True | Some B, Some B' => same_plan (snd (fst s)) B B' | _, _ => False end) 4 (ad_subs a)) with (l := ad_subs a) (pre := @nil (string * adesc * bool)) (A := A4)
    as (o5 & A5 & E5 & R5 & G5 & K5); auto.
  { intros k s B Hk U. assert (Hp := nth_error_Forall2 _ _ _ _ _ None O5 Hk). specialize (H5 k s Hk). unfold copy_sub, sub_part, sub_shows, get_sub in *.
    destruct (nth k (ar_subs x) None) as [y|].
    - destruct H5 as (C' & EC & Su & Sh'). rewrite EC. inversion F as [? ? _ _ _ _ F5]; subst. inversion Wh as [? ? Wh']; subst. inversion C as [? ? _ _ C5]; subst.
      destruct (IH s (nth_error_In _ _ Hk) (sub_place p (fst (fst s))) C' y) as (o & D & Eo & Ho & Sp); auto.
      + apply (W5 s). eapply nth_error_In; eauto.
      + exact (F5 k s C' Hk EC).
      + apply (Wh' k s C' Hk EC).
      + exact (C5 k s C' Hk EC).
      + rewrite Eo. cbn [obind]. destruct (history_sub a k s Hk _ _ _ Ho (pl_sub k (Some no_plan) B)) as (B' & HB & EB & Ot & K); [apply nupd_same|].
        eexists _, B'. split; [reflexivity|]. split; [econstructor; [eapply may_sub_new; eauto|exact HB]|]. rewrite EB. split; [exact Sp|]. split.
        * intros j Hj. rewrite Ot by exact Hj. cbn [pl_subs pl_sub]. now apply nupd_other.
        * eapply keep_trans; [apply keep_sub|exact K].
    - exists [], B. split; [reflexivity|]. split; [constructor|]. rewrite U. split; [|split; [auto|apply keep_refl]].
      destruct (pl_subs A k) as [C'|] eqn:EC; [|exact I]. inversion Wh as [? ? Wh']; subst. apply (H5 C' eq_refl), (Wh' k s C' Hk EC). }
  { intros j _. destruct K1 as (_ & _ & _ & _ & K), K2 as (_ & _ & _ & _ & K'), K3 as (_ & _ & _ & _ & K''), K4 as (_ & _ & _ & _ & K3'). rewrite K3', K'', K', K by discriminate. reflexivity. }
  { intros j r Hj. inversion Hj. }
  cbn [length] in E1, E2, E3, E4, E5. rewrite E1. cbn [obind]. rewrite E2. cbn [obind]. rewrite E3. cbn [obind]. rewrite E4. cbn [obind]. rewrite E5. cbn [obind].
  eexists _, A5. split; [reflexivity|]. split; [repeat (eapply history_app; [eassumption|]); assumption|].
  destruct K2 as (K2a & K2b & K2c & K2d & K2e), K3 as (K3a & K3b & K3c & K3d & K3e), K4 as (K4a & K4b & K4c & K4d & K4e), K5 as (K5a & K5b & K5c & K5d & K5e).
  constructor.
  - intros k r Hk. rewrite K5a, K4a, K3a, K2a by discriminate. symmetry. exact (G1 k r Hk).
  - intros k r Hk. rewrite K5b, K4b, K3b by discriminate. exact (G2 k r Hk).
  - intros k r Hk. rewrite K5c, K4c by discriminate. exact (G3 k r Hk).
  - intros k r Hk. rewrite K5d by discriminate. symmetry. exact (G4 k r Hk).
  - intros k s Hk. specialize (G5 k s Hk). cbn beta in G5. destruct (pl_subs A k), (pl_subs A5 k); try contradiction; split; congruence.
  - intros k s B B' Hk E E'. specialize (G5 k s Hk). cbn beta in G5. rewrite E, E' in G5. exact G5.
Qed.

(** An archive built in one place, opened, and copied to another. *)
Lemma copy_same b e lim b' e' lim' b2 e2 fields a id base w ops A w1 r w2 x id' base' w' :
  wf_archive true a -> dirs_apart a ->
  maps_ok w -> unused_storage (FileStorage id base) w -> empty_place (FileStorage id base) w ->
  history true a no_plan ops A -> finished A -> whole a A -> copyable fields a A ->
  builder_new b e a (FileStorage id base) w = (Ret (Ok (FileStorage id base)), w1) ->
  brun b e lim a ops (new_bstate (FileStorage id base)) w1 = (Ret r, w2) ->
  fresh_open b2 e2 a base w2 = Ret (Ok x) ->
  maps_ok w' -> unused_storage (FileStorage id' base') w' -> empty_place (FileStorage id' base') w' ->
  exists cops w1' r' w2', copy_ops b2 e2 fields a x = Ret cops /\
    builder_new b' e' a (FileStorage id' base') w' = (Ret (Ok (FileStorage id' base')), w1') /\
    brun b' e' lim' a cops (new_bstate (FileStorage id' base')) w1' = (Ret r', w2') /\
    fst r' = repeat true (length cops) /\ same_tree base w2 base' w2'.
Proof.
  intros Wf Da M U E H Fi Wh C N R Op M' U' E'.
  destruct (build_progress b e lim a (FileStorage id base) w ops A Wf Da M U E H) as (x1 & s & x2 & X1 & X2 & Rm).
  rewrite N in X1. injection X1 as <-. rewrite R in X2. injection X2 as -> <-.
  assert (S2 := build_sim b e lim a (FileStorage id base) w w1 ops A _ _ w2 Wf M U N H R (flags_true _)).
  destruct (sim_opens _ a (FileStorage id base) A s w2 (PDisk base w2) Wf eq_refl S2 Fi) as (P & Q & Cc & O). { right. eauto. }
  assert (Sh : opened true a (PDisk base w2) x).
  { change (fresh_open b2 e2 a base w2) with (fst (open_archive b2 e2 a (FileStorage 0 base) (reader_world w2))) in Op.
    destruct (open_exact_at b2 e2 a (FileStorage 0 base) (reader_world w2) (PDisk base w2)) as (q & w3 & Eq & _ & Y); auto.
    - apply represents_disk.
    - rewrite Eq in Op. cbn [fst] in Op. injection Op as ->. exact (Y x eq_refl). }
  destruct (copy_plan b2 e2 fields true a (PDisk base w2) A x Wf Sh (O x Sh) (history_fits _ _ _ _ _ H (fits_new a)) Wh C) as (cops & A' & Ec & Hc & Sp).
  destruct (build_progress b' e' lim' a (FileStorage id' base') w' cops A' Wf Da M' U' E' Hc) as (y1 & s' & y2 & Y1 & Y2 & Rm').
  exists cops, y1, (repeat true (length cops), s'), y2. split; [exact Ec|]. split; [exact Y1|]. split; [exact Y2|]. split; [reflexivity|].
  eapply sim_tree; [exact Wf|exact Sp|exact S2| |exact (Rm eq_refl)|exact (Rm' eq_refl)].
  exact (build_sim b' e' lim' a (FileStorage id' base') w' y1 cops A' _ _ y2 Wf M' U' Y1 Hc Y2 (flags_true _)).
Qed.
