(** Facts about builders that go on after failures. *)
From Verif Require Import Base BaseFacts Codec CodecSpec CodecFacts Structs StructsSpec StructsFacts Views ViewsSpec ViewsFacts.
From Verif Require Import Storage PathFacts StorageSpec StorageFacts StorageMore StorageUse Writers WritersSpec HandleFacts EncodeFacts.
From Verif Require Import ElsewhereFacts ExtVecFacts ExtVecUse MultiViews MultiSpec MultiViewFacts MultiViewUse MultiVecFacts MultiVecUse.
From Verif Require Import Archives ArchiveSpec ArchiveFacts BuilderSpec BuilderFacts BuilderUse BuilderCrash RetrySpec.
Local Open Scope list_scope.
Local Open Scope Z_scope.
Local Arguments firstn : simpl never.
Local Arguments skipn : simpl never.

(** * Unfoldings *)
Lemma go_ext (F : nat -> list (string * adesc * bool) -> Prop) (Q : nat -> string * adesc * bool -> Prop) :
  (forall k, F k []) -> (forall k x l, F k (x :: l) <-> Q k x /\ F (S k) l) ->
  forall l, F O l <-> forall k x, nth_error l k = Some x -> Q k x.
Proof.
  intros F0 F1.
  assert (H : forall l i, F i l <-> forall k x, nth_error l k = Some x -> Q (i + k)%nat x).
  { induction l as [|y l IH]; intros i.
    - split; [intros _ [|k] x H; discriminate H|intros; apply F0].
    - rewrite F1, IH. split.
      + intros [H H'] [|k] x Hk; cbn [nth_error] in Hk.
        * injection Hk as <-. rewrite Nat.add_0_r. exact H.
        * rewrite <- Nat.add_succ_comm. auto.
      + intros H. split.
        * specialize (H O _ eq_refl). rewrite Nat.add_0_r in H. exact H.
        * intros k x Hk. rewrite Nat.add_succ_comm. apply H. exact Hk. }
  intros l. apply (H l O).
Qed.

Definition sub_complete (A : course) (k : nat) (s : string * adesc * bool) : Prop :=
  snd s = false -> match co_subs A k with SLive A' => complete (snd (fst s)) A' | _ => False end.
Lemma complete_eq a A : complete a A <->
  (forall k r, nth_error (ad_structs a) k = Some r -> tr_opt r = false -> exists d, co_structs A k = Known (Some d)) /\
  (forall k r, nth_error (ad_vectors a) k = Some r -> tr_opt r = false ->
     (exists d, co_vecs A k = VByte (Known (Some d))) \/ exists l, co_vecs A k = VDone l) /\
  (forall k r, nth_error (ad_multis a) k = Some r -> mr_opt r = false -> exists l, co_muls A k = MDone l) /\
  (forall k r, nth_error (ad_raws a) k = Some r -> rr_opt r = false -> exists d, co_raws A k = Known (Some d)) /\
  (forall k s, nth_error (ad_subs a) k = Some s -> sub_complete A k s).
Proof.
  destruct a as [name schema ss vs ms rs subs]. cbn [complete ad_structs ad_vectors ad_multis ad_raws ad_subs].
  match goal with |- _ /\ _ /\ _ /\ _ /\ ?G _ _ <-> _ => set (go := G) end.
  rewrite (go_ext go (sub_complete A)); [tauto|intros k; exact I|]. intros k [[n a'] o] l. reflexivity.
Qed.
Definition sub_attempted (A : course) (k : nat) (s : string * adesc * bool) : Prop :=
  snd s = false -> match co_subs A k with
    | SLive A' => attempted (snd (fst s)) A' | SFailed => attempted (snd (fst s)) no_course | SNever => False end.
Lemma attempted_eq a A : attempted a A <->
  (forall k r, nth_error (ad_structs a) k = Some r -> tr_opt r = false -> co_structs A k <> Known None) /\
  (forall k r, nth_error (ad_vectors a) k = Some r -> tr_opt r = false -> co_vecs A k <> VByte (Known None)) /\
  (forall k r, nth_error (ad_multis a) k = Some r -> mr_opt r = false -> co_muls A k <> MNever) /\
  (forall k r, nth_error (ad_raws a) k = Some r -> rr_opt r = false -> co_raws A k <> Known None) /\
  (forall k s, nth_error (ad_subs a) k = Some s -> sub_attempted A k s).
Proof.
  destruct a as [name schema ss vs ms rs subs]. cbn [attempted ad_structs ad_vectors ad_multis ad_raws ad_subs].
  match goal with |- _ /\ _ /\ _ /\ _ /\ ?G _ _ <-> _ => set (go := G) end.
  rewrite (go_ext go (sub_attempted A)); [tauto|intros k; exact I|]. intros k [[n a'] o] l. reflexivity.
Qed.
Definition csub_shows (A : course) (x : archive) (k : nat) (s : string * adesc * bool) : Prop :=
  let a' := snd (fst s) in
  match co_subs A k, nth k (ar_subs x) None with
  | SNever, y => y = None
  | SFailed, Some x' => attempted a' no_course /\ course_shows a' no_course x'
  | SFailed, None => True
  | SLive B, Some x' => attempted a' B /\ course_shows a' B x'
  | SLive B, None => ~ complete a' B
  end.
Lemma course_eq a A x : course_shows a A x <->
  (forall k r, nth_error (ad_structs a) k = Some r -> fate_shows (co_structs A k) (nth k (ar_structs x) None)) /\
  (forall k r, nth_error (ad_vectors a) k = Some r -> vfate_shows r (co_vecs A k) (nth k (ar_vectors x) None)) /\
  (forall k r, nth_error (ad_multis a) k = Some r -> mfate_shows r (co_muls A k) (nth k (ar_multis x) (None, None))) /\
  (forall k r, nth_error (ad_raws a) k = Some r -> fate_shows (co_raws A k) (nth k (ar_raws x) None)) /\
  (forall k s, nth_error (ad_subs a) k = Some s -> csub_shows A x k s).
Proof.
  destruct a as [name schema ss vs ms rs subs]. cbn [course_shows ad_structs ad_vectors ad_multis ad_raws ad_subs].
  match goal with |- _ /\ _ /\ _ /\ _ /\ ?G _ _ <-> _ => set (go := G) end.
  rewrite (go_ext go (csub_shows A x)); [tauto|intros k; exact I|]. intros k [[n a'] o] l. reflexivity.
Qed.

(** * Files that can only hold some data *)
Definition only (l : list (list Z)) (st : storage) (n : string) (w : world) : Prop :=
  forall c, bytes_at (cell_at st n) w = Some c ->
    header c + 16 < 2 ^ 64 /\
    forall d pad, c = framed d pad -> len pad = 8 -> len c <= isize_max -> In d l.
Lemma only_mono l l' st n w : incl l l' -> only l st n w -> only l' st n w.
Proof. intros I H c B. destruct (H c B) as [T X]. split; [exact T|]. intros d pad E L S. apply I. eauto. Qed.
Lemma only_same l st n w w' : bytes_at (cell_at st n) w' = bytes_at (cell_at st n) w -> only l st n w -> only l st n w'.
Proof. intros E H c. rewrite E. apply H. Qed.
Lemma only_intact l st n w w' : intact st n w w' -> only l st n w -> only l st n w'.
Proof. intros I. apply only_same. apply intact_bytes. exact I. Qed.
Lemma only_none l st n w : bytes_at (cell_at st n) w = None -> only l st n w.
Proof. intros E c. congruence. Qed.
Lemma only_prefix d st n w p q : data_ok d -> resource_bytes d = p ++ q -> bytes_at (cell_at st n) w = Some p -> only [d] st n w.
Proof.
  intros Do E B c Hc. assert (c = p) by congruence. subst c. split.
  - assert (Bd : bytes_ok (resource_bytes d)) by (apply resource_bytes_ok; exact Do).
    assert (Hh := resource_header d Do). rewrite E in Hh, Bd. assert (X := BuilderCrash.prefix_header p q Bd).
    destruct Do as [_ Ld]. unfold isize_max in Ld. lia.
  - intros d' pad Ep L _. left. symmetry. eapply (prefix_framed d p q d' pad); eauto.
Qed.
Lemma only_exact d st n w : data_ok d -> bytes_at (cell_at st n) w = Some (resource_bytes d) -> only [d] st n w.
Proof. intros Do B. eapply (only_prefix d st n w (resource_bytes d) []); eauto. rewrite app_nil_r. reflexivity. Qed.
Lemma only_zeros l st n w p q : zeros 8 = p ++ q -> bytes_at (cell_at st n) w = Some p -> only l st n w.
Proof.
  intros E B c Hc. assert (c = p) by congruence. subst c. split.
  - assert (X := BuilderCrash.prefix_header p q). rewrite <- E in X. specialize (X (bytes_ok_zeros 8)).
    change (header (zeros 8)) with 0 in X. lia.
  - intros d pad Ep L _. apply (f_equal len) in E. rewrite len_app, Ep, framed_len in E. change (len (zeros 8)) with 8 in E.
    pose proof (len_nonneg q). pose proof (len_nonneg d). lia.
Qed.
Lemma framed_fits d pad : len (framed d pad) <= isize_max -> len d < 2 ^ 64.
Proof. rewrite framed_len. intros L. pose proof (len_nonneg pad). unfold isize_max in L. lia. Qed.
Lemma only_unsealed st n schema w : unsealed st n schema w -> only [[]] st n w.
Proof.
  intros (c & B & Z0 & Bc & _) c' Hc. assert (c' = c) by congruence. subst c'. split.
  - unfold header. rewrite Z0. reflexivity.
  - intros d pad E L S. left. symmetry. subst c. eapply zero_header_data; eauto. eapply framed_fits; eauto.
Qed.

Section Disk.
Context (id : nat) (base : string).
Let st := FileStorage id base.
Lemma only_holds l n w sch d : disk_ok w -> only l st n w -> holds (PDisk base w) n sch d -> In d l.
Proof.
  intros Dk O H. apply (disk_holds id) in H as (pad & B & L). destruct (O _ B) as [_ X]. eapply X; eauto.
  apply (disk_small id base w n _ Dk B).
Qed.
Lemma only_tame l n w : only l st n w -> tame (PDisk base w) n.
Proof. intros O. apply (disk_tame id). intros c B. apply (O c B). Qed.
Lemma exact_tells n schema d w : bytes_at (cell_at st n) w = Some (resource_bytes d) ->
  bytes_at (cell_at st (schema_name n)) w = Some schema -> data_ok d -> schema_ok st schema ->
  tells (PDisk base w) n schema (Some d).
Proof.
  intros A B D (U & _ & _ & N). simpl. unfold st in *. cbn [cell_at bytes_at] in *.
  unfold res_key, res_path in *. cbn [st_base] in *. rewrite A, B.
  split; [|split; [|auto]].
  - assert (X := resource_bytes_nonempty d). destruct (resource_bytes d); [congruence|reflexivity].
  - specialize (N eq_refl). destruct schema; [congruence|reflexivity].
Qed.
Lemma absent_tells n schema w : bytes_at (cell_at st n) w = None -> bytes_at (cell_at st (schema_name n)) w = None ->
  tells (PDisk base w) n schema None.
Proof.
  intros A B. simpl. unfold st in *. cbn [cell_at bytes_at] in *. unfold res_key, res_path in *. cbn [st_base] in *.
  rewrite A, B. auto.
Qed.
End Disk.

(** * Resources *)
(** [live]: the process is still running. *)
Definition fslot (live : bool) st n schema (f : fate) (w : world) : Prop :=
  (live = true -> fresh_name st n w) /\
  match f with
  | Known None => bytes_at (cell_at st n) w = None /\ bytes_at (cell_at st (schema_name n)) w = None
  | Known (Some d) => bytes_at (cell_at st n) w = Some (resource_bytes d) /\
      bytes_at (cell_at st (schema_name n)) w = Some schema /\ data_ok d
  | Unsure l => only l st n w
  end.
Lemma fslot_only live st n schema f w : fslot live st n schema f w -> only (possible f) st n w.
Proof.
  intros [_ H]. destruct f as [[d|]|l]; simpl.
  - destruct H as (B & _ & D). apply only_exact; auto.
  - apply only_none. apply H.
  - exact H.
Qed.
Lemma fresh_intact st n w w' : both st n w w' -> fresh_name st n w -> fresh_name st n w'.
Proof. intros [I J] [U V]. split; eapply unused_intact; eauto. Qed.
Lemma fslot_intact live st n schema f w w' : both st n w w' -> fslot live st n schema f w -> fslot live st n schema f w'.
Proof.
  intros Bo [F H]. split; [intros L; eapply fresh_intact; eauto|]. destruct Bo as [I J].
  destruct f as [[d|]|l]; rewrite ?(intact_bytes _ _ _ _ I), ?(intact_bytes _ _ _ _ J); auto.
  eapply only_intact; eauto.
Qed.
Lemma fslot_live live st n schema f w : fslot true st n schema f w -> fslot live st n schema f w.
Proof. intros [F H]. split; auto. Qed.
Lemma step_fresh P st n w w' : step P w w' -> is_file st = true -> fresh_name st n w -> fresh_name st n w'.
Proof.
  intros (_ & (_ & C) & _) Fs. destruct st as [id base|id base]; [discriminate|]. unfold fresh_name. simpl. rewrite C. auto.
Qed.

Lemma write_fslot b e st n schema d f w o w' ok : is_file st = true -> fslot true st n schema f w -> data_ok d ->
  write b e st n schema d w = (o, w') ->
  (o = Ret (Ok tt) /\ ok = true \/ o <> Ret (Ok tt) /\ ok = false) ->
  step (cells_of st n) w w' /\ fslot true st n schema (tried ok d f) w'.
Proof.
  intros Fs S Do R Ho. assert (Fr := proj1 S eq_refl).
  destruct (fresh_start _ _ _ (proj1 Fr)) as [A1 A2]. destruct (fresh_start _ _ _ (proj2 Fr)) as [B1 B2].
  destruct (write_cases b e st n schema d w o w' A1 B1 R) as [T X].
  split; [exact T|].
  assert (Fr' : fresh_name st n w') by (eapply step_fresh; eauto).
  destruct X as [(-> & X & Y)|(_ & Fo & _ & P)].
  - destruct Ho as [[_ ->]|[No _]]; [|congruence]. rewrite A2, app_nil_l in X. rewrite B2, app_nil_l in Y.
    split; [auto|]. simpl. auto.
  - destruct Ho as [[-> _]|[_ ->]]; [destruct Fo as [[k Fo]|Fo]; discriminate Fo|].
    split; [auto|]. simpl. assert (O := fslot_only _ _ _ _ _ _ S).
    destruct P as [[P _]|[(p & q & E & P & _)|(p & q & _ & P & _)]].
    + apply (only_mono (possible f)); [intros x I; right; exact I|]. eapply only_same; eauto.
    + apply (only_mono [d]); [intros x [->|[]]; left; reflexivity|]. eapply only_prefix; eauto.
    + apply (only_mono [d]); [intros x [->|[]]; left; reflexivity|]. apply only_exact; auto.
Qed.
Lemma create_only l st n schema w w' : only l st n w -> create_progress st n schema w w' -> only l st n w'.
Proof.
  intros O [[P _]|(p & q & E & P & _)].
  - eapply only_same; eauto.
  - eapply only_zeros; eauto.
Qed.

(** [tidy]: nothing failed while a vector or multivector that is being written was written. *)
Section Tidy.
Variable tidy : bool.
Definition vfslot (live : bool) st (r : typed_res) (f : vfate) (v : option ext_vec) w : Prop :=
  let s := tr_struct r in
  match f with
  | VByte f => fslot live st (tr_name r) (tr_schema r) f w
  | VWriting l =>
      if live then
        Z.of_nat (length l) * s_size s + 16 <= isize_max /\
        exists v' W rest c, v = Some v' /\ (tidy = true -> c = zeros 8 ++ W) /\
          ev_inv st (tr_name r) (tr_schema r) s v' w (elements s l) W rest c
      else unsealed st (tr_name r) (tr_schema r) w
  | VDone l => exists D c, data_ok D /\ array_of s D (elements s l) /\ records s D = elements s l /\
      bytes_at (cell_at st (tr_name r)) w = Some c /\ bytes_at (cell_at st (schema_name (tr_name r))) w = Some (tr_schema r) /\
      (len c <= isize_max -> c = resource_bytes D)
  | VDead l => exists D, data_ok D /\ array_of s D (elements s l) /\ records s D = elements s l /\
      unfinished st (tr_name r) (tr_schema r) D w
  end.
Definition too_long st (r : multi_res) w : Prop :=
  exists n c, (n = mr_name r \/ n = mr_index r) /\ bytes_at (cell_at st n) w = Some c /\ isize_max < len c.
Definition stored_bytes st (r : multi_res) (Di Dd : list Z) w : Prop :=
  bytes_at (cell_at st (mr_index r)) w = Some (resource_bytes Di) /\
  bytes_at (cell_at st (schema_name (mr_index r))) w = Some (index_schema (mr_schema r)) /\
  bytes_at (cell_at st (mr_name r)) w = Some (resource_bytes Dd) /\
  bytes_at (cell_at st (schema_name (mr_name r))) w = Some (mr_schema r).
Definition mfslot (live : bool) st (r : multi_res) (f : mfate) (v : option multi_vec) w : Prop :=
  let is := index_struct (mr_size r) (mr_bits r) in
  match f with
  | MNever => fslot live st (mr_index r) (index_schema (mr_schema r)) (Known None) w /\
      fslot live st (mr_name r) (mr_schema r) (Known None) w
  | MFailed => fslot live st (mr_index r) (index_schema (mr_schema r)) (Unsure [[]]) w /\
      fslot live st (mr_name r) (mr_schema r) (Unsure [[]]) w
  | MWriting l =>
      if live then
        buckets_size (mr_types r) l < 2 ^ mr_bits r /\ buckets_size (mr_types r) l + 16 <= isize_max /\
        (Z.of_nat (length l) + 1) * mr_size r + 16 <= isize_max /\
        exists v' bs clean, v = Some v' /\ (tidy = true -> clean = true) /\ len (concat bs) = buckets_size (mr_types r) l /\
          mv_inv st (mr_name r) (mr_schema r) (mr_types r) (mr_size r) (mr_bits r) v' w (bounds 0 bs) (buckets (mr_types r) l) bs clean
      else unsealed st (mr_index r) (index_schema (mr_schema r)) w /\ unsealed st (mr_name r) (mr_schema r) w
  | MDone l => too_long st r w \/ exists bs Di, Forall2 (bucket_of (mr_types r)) bs (buckets (mr_types r) l) /\
      records is Di = map (fun x => [x]) (bounds 0 bs ++ [len (concat bs)]) /\ data_ok Di /\ data_ok (concat bs) /\
      stored_bytes st r Di (concat bs) w
  | MDead l => too_long st r w \/ exists bs Di, Forall2 (bucket_of (mr_types r)) bs (buckets (mr_types r) l) /\
      records is Di = map (fun x => [x]) (bounds 0 bs ++ [len (concat bs)]) /\ data_ok Di /\ data_ok (concat bs) /\
      unfinished st (mr_index r) (index_schema (mr_schema r)) Di w /\ unfinished st (mr_name r) (mr_schema r) (concat bs) w
  end.
Definition cslot (live : bool) (a : adesc) (st : storage) (A : course) (s : bstate) (sl : slot) (w : world) : Prop :=
  match sl with
  | SSig => fslot live st (signature_name (ad_name a)) (ad_schema a) (Known (Some [])) w
  | SStruct k => at_slot (nth_error (ad_structs a) k) (fun r => fslot live st (tr_name r) (tr_schema r) (co_structs A k) w)
  | SVec k => at_slot (nth_error (ad_vectors a) k) (fun r => vfslot live st r (co_vecs A k) (bs_vecs s k) w)
  | SMul k => at_slot (nth_error (ad_multis a) k) (fun r => mfslot live st r (co_muls A k) (bs_muls s k) w)
  | SRaw k => at_slot (nth_error (ad_raws a) k) (fun r => fslot live st (rr_name r) (rr_schema r) (co_raws A k) w)
  end.

Lemma unsealed_intact st n schema w w' : both st n w w' -> unsealed st n schema w -> unsealed st n schema w'.
Proof. intros [I J] (c & A & B). exists c. rewrite (intact_bytes _ _ _ _ I), (intact_bytes _ _ _ _ J). auto. Qed.
Lemma unfinished_intact st n schema D w w' : both st n w w' -> unfinished st n schema D w -> unfinished st n schema D w'.
Proof.
  intros [I J] (A & c & B & C). split; [rewrite (intact_bytes _ _ _ _ J); exact A|].
  exists c. rewrite (intact_bytes _ _ _ _ I). auto.
Qed.
Lemma vfslot_intact live st r f v w w' : both st (tr_name r) w w' -> vfslot live st r f v w -> vfslot live st r f v w'.
Proof.
  intros B. destruct f as [f|l|l|l]; simpl.
  - apply fslot_intact. exact B.
  - destruct live; [|apply unsealed_intact; exact B]. intros (Z & v' & W & rest & c & E & Ti & H). split; [exact Z|].
    exists v', W, rest, c. split; [exact E|]. split; [exact Ti|]. destruct B. eapply ev_inv_intact; eauto.
  - intros (D & c & H1 & H2 & H3 & H4 & H5 & H6). destruct B as [I J]. exists D, c.
    rewrite (intact_bytes _ _ _ _ I), (intact_bytes _ _ _ _ J). auto 10.
  - intros (D & H1 & H2 & H3 & H4). exists D. split; [exact H1|]. split; [exact H2|]. split; [exact H3|].
    eapply unfinished_intact; eauto.
Qed.
Lemma too_long_intact st r w w' : both st (mr_index r) w w' -> both st (mr_name r) w w' -> too_long st r w -> too_long st r w'.
Proof.
  intros [I _] [J _] (n & c & [->| ->] & B & L).
  - exists (mr_name r), c. rewrite (intact_bytes _ _ _ _ J). auto.
  - exists (mr_index r), c. rewrite (intact_bytes _ _ _ _ I). auto.
Qed.
Lemma mfslot_intact live st r f v w w' : mr_index r = index_name (mr_name r) ->
  both st (mr_index r) w w' -> both st (mr_name r) w w' -> mfslot live st r f v w -> mfslot live st r f v w'.
Proof.
  intros En I J. destruct f as [| |l|l|l]; cbn [mfslot].
  - intros [A B]. split; eapply fslot_intact; eauto.
  - intros [A B]. split; eapply fslot_intact; eauto.
  - destruct live.
    + intros (B1 & B2 & B3 & v' & bs & cl & V & Ti & L & H). split; [exact B1|]. split; [exact B2|]. split; [exact B3|].
      exists v', bs, cl. split; [exact V|]. split; [exact Ti|]. split; [exact L|].
      eapply mv_inv_intact; [|exact H]. rewrite En in I. destruct I, J.
      intros n [<-|[<-|[<-|[<-|[]]]]]; auto.
    + intros [A B]. split; eapply unsealed_intact; eauto.
  - intros [H|(bs & Di & H1 & H2 & H3 & H4 & H5)]; [left; eapply too_long_intact; eauto|right].
    exists bs, Di. destruct I as [I1 I2], J as [J1 J2]. unfold stored_bytes.
    rewrite (intact_bytes _ _ _ _ I1), (intact_bytes _ _ _ _ I2), (intact_bytes _ _ _ _ J1), (intact_bytes _ _ _ _ J2). auto 10.
  - intros [H|(bs & Di & H1 & H2 & H3 & H4 & H5 & H6)]; [left; eapply too_long_intact; eauto|right].
    exists bs, Di. split; [exact H1|]. split; [exact H2|]. split; [exact H3|]. split; [exact H4|].
    split; eapply unfinished_intact; eauto.
Qed.
Lemma multi_index a k r : wf_archive true a -> nth_error (ad_multis a) k = Some r -> mr_index r = index_name (mr_name r).
Proof.
  intros Wf E. apply wf_eq in Wf. destruct Wf as (_ & _ & _ & _ & _ & Hm & _). rewrite Forall_forall in Hm.
  apply nth_error_In in E. apply (Hm r E).
Qed.
Lemma cslot_intact live a st A s sl w w' : wf_archive true a ->
  (forall n, In n (slot_names a sl) -> both st n w w') -> cslot live a st A s sl w -> cslot live a st A s sl w'.
Proof.
  intros Wf I. destruct sl as [|k|k|k|k]; cbn [cslot slot_names] in *.
  - apply fslot_intact. apply I. left; auto.
  - destruct (nth_error (ad_structs a) k); cbn [at_slot opt_list] in *; auto. apply fslot_intact, I. left; auto.
  - destruct (nth_error (ad_vectors a) k); cbn [at_slot opt_list] in *; auto. apply vfslot_intact, I. left; auto.
  - destruct (nth_error (ad_multis a) k) as [r|] eqn:E; cbn [at_slot opt_list] in *; auto. apply mfslot_intact.
    + eapply multi_index; eauto.
    + apply I. left; auto.
    + apply I. right; left; auto.
  - destruct (nth_error (ad_raws a) k); cbn [at_slot opt_list] in *; auto. apply fslot_intact, I. left; auto.
Qed.
Lemma cslot_live live a st A s sl w : wf_archive true a -> cslot true a st A s sl w -> cslot live a st A s sl w.
Proof.
  intros Wf. destruct live; auto. destruct sl as [|k|k|k|k]; cbn [cslot].
  - apply fslot_live.
  - destruct (nth_error (ad_structs a) k); cbn [at_slot]; auto. apply fslot_live.
  - destruct (nth_error (ad_vectors a) k); cbn [at_slot]; auto. destruct (co_vecs A k); cbn [vfslot]; auto.
    + apply fslot_live.
    + intros (_ & v & W & rest & c & _ & _ & H). eapply ev_inv_unsealed; eauto.
  - destruct (nth_error (ad_multis a) k) as [r|] eqn:E; cbn [at_slot]; auto.
    destruct (co_muls A k); cbn [mfslot]; auto; try (intros [X Y]; split; apply fslot_live; assumption).
    intros (_ & _ & _ & v & bs & cl & _ & _ & _ & H). apply mv_inv_unsealed in H as [H1 H2].
    rewrite (multi_index a k r Wf E). auto.
  - destruct (nth_error (ad_raws a) k); cbn [at_slot]; auto. apply fslot_live.
Qed.

(** * Builders *)
(** A sub-archive that could not be created: at most its signature is there. *)
Definition half (a : adesc) (base : string) (w : world) : Prop :=
  let st := FileStorage 0 base in let n := signature_name (ad_name a) in
  (forall k, under base k -> k <> res_key st n -> k <> res_key st (schema_name n) -> w_files w k = None) /\
  only [[]] st n w.
Fixpoint csim (live : bool) (a : adesc) (id : nat) (base : string) (A : course) (s : bstate) (w : world) {struct a} : Prop :=
  let 'mkArchive _ _ _ _ _ _ subs := a in
  let st := FileStorage id base in
  bs_st s = st /\ (id < w_next w)%nat /\ (forall sl, cslot live a st A s sl w) /\
  (fix go (k : nat) (l : list (string * adesc * bool)) : Prop :=
     match l with
     | [] => True
     | (n, a', _) :: l =>
         match co_subs A k with
         | SNever => forall k', under (path_join base n) k' -> w_files w k' = None
         | SFailed => half a' (path_join base n) w
         | SLive A' => exists id' s', bs_subs s k = Some s' /\ csim live a' id' (path_join base n) A' s' w
         end /\ go (S k) l
     end) O subs.
Definition csub (live : bool) (base : string) (A : course) (s : bstate) (w : world) (k : nat) (x : string * adesc * bool) : Prop :=
  let base' := path_join base (fst (fst x)) in
  match co_subs A k with
  | SNever => forall k', under base' k' -> w_files w k' = None
  | SFailed => half (snd (fst x)) base' w
  | SLive A' => exists id' s', bs_subs s k = Some s' /\ csim live (snd (fst x)) id' base' A' s' w
  end.
Lemma csim_eq live a id base A s w : csim live a id base A s w <->
  bs_st s = FileStorage id base /\ (id < w_next w)%nat /\ (forall sl, cslot live a (FileStorage id base) A s sl w) /\
  (forall k x, nth_error (ad_subs a) k = Some x -> csub live base A s w k x).
Proof.
  destruct a as [name schema ss vs ms rs subs]. cbn [csim ad_subs].
  match goal with |- _ /\ _ /\ _ /\ ?G _ _ <-> _ => set (go := G) end.
  rewrite (go_ext go (csub live base A s w)); [tauto|intros k; exact I|]. intros k [[n a'] o] l. reflexivity.
Qed.

Lemma files_frame (P : cell -> Prop) base w w' : frame P w w' -> (forall k, under base k -> ~ P (CFile k)) ->
  forall k, under base k -> w_files w' k = w_files w k.
Proof. intros (_ & F & _) N k U. apply F. auto. Qed.
Lemma half_same a base w w' : wf_archive true a -> (forall k, under base k -> w_files w' k = w_files w k) ->
  half a base w -> half a base w'.
Proof.
  intros Wf E [H O]. assert (Vn : valid_name (signature_name (ad_name a))) by (apply signature_valid; apply wf_eq in Wf; tauto).
  split; [intros k U N1 N2; rewrite E by exact U; auto|].
  eapply only_same; [|exact O]. cbn [cell_at bytes_at]. apply E. apply (under_res 0). exact Vn.
Qed.
Lemma csim_frame live (P : cell -> Prop) a : forall id base A s w w', wf_archive true a -> csim live a id base A s w -> frame P w w' ->
  (forall k, under base k -> ~ P (CFile k)) -> csim live a id base A s w'.
Proof.
  induction a as [name schema ss vs ms rs subs IH] using adesc_deep_ind. intros id base A s w w' Wf.
  rewrite !csim_eq. intros (E & B & S & U) F N. split; [exact E|]. split; [destruct F as (_ & _ & _ & F); lia|].
  set (a := mkArchive name schema ss vs ms rs subs) in *.
  split.
  - intros sl. eapply cslot_intact; [exact Wf| |apply S]. intros n I. apply slot_part in I.
    assert (V := part_valid _ _ _ Wf I).
    split; (eapply frame_intact; [exact F|exact B|]); apply N; apply (under_res id); auto using valid_schema.
  - intros k x Hk. specialize (U k x Hk). unfold csub in *.
    assert (I := nth_error_In _ _ Hk). destruct (sub_valid _ _ _ Wf I) as [V Wx].
    assert (N' : forall k, under (path_join base (fst (fst x))) k -> ~ P (CFile k)) by (intros k' U'; apply N; eapply under_sub; eauto).
    assert (Fe := files_frame P _ w w' F N').
    destruct (co_subs A k) as [| |A'].
    + intros k' U'. rewrite Fe by exact U'. auto.
    + eapply half_same; eauto.
    + destruct U as (id' & s' & Es & H). exists id', s'. split; [exact Es|].
      rewrite Forall_forall in IH. eapply (IH x I); eauto.
Qed.
Lemma csim_live live a : forall id base A s w, wf_archive true a -> csim true a id base A s w -> csim live a id base A s w.
Proof.
  induction a as [name schema ss vs ms rs subs IH] using adesc_deep_ind. intros id base A s w Wf.
  rewrite !csim_eq. intros (E & B & S & U). split; [exact E|]. split; [exact B|]. split.
  - intros sl. apply cslot_live; auto.
  - intros k x Hk. specialize (U k x Hk). unfold csub in *.
    assert (I := nth_error_In _ _ Hk). destruct (sub_valid _ _ _ Wf I) as [V Wx].
    destruct (co_subs A k) as [| |A']; auto. destruct U as (id' & s' & Es & H). exists id', s'. split; [exact Es|].
    rewrite Forall_forall in IH. apply (IH x I); auto.
Qed.
Lemma csub_live live a base A s w k x : wf_archive true a -> nth_error (ad_subs a) k = Some x ->
  csub true base A s w k x -> csub live base A s w k x.
Proof.
  intros Wf Hk. unfold csub. destruct (co_subs A k); auto. intros (id' & s' & E & H). exists id', s'. split; [exact E|].
  apply csim_live; auto. eapply sub_valid; eauto using nth_error_In.
Qed.

(** A step at one slot. *)
Lemma clocal_rest a id base A s sl0 w w' : wf_archive true a -> let st := FileStorage id base in csim true a id base A s w ->
  touches (fun c => exists n, In n (slot_names a sl0) /\ cells_of st n c) w w' ->
  frame (region st) w w' /\ (forall sl, sl <> sl0 -> cslot true a st A s sl w') /\
  (forall k x, nth_error (ad_subs a) k = Some x -> csub true base A s w' k x).
Proof.
  intros Wf st Hs T.
  set (P := fun c => exists n, In n (slot_names a sl0) /\ cells_of st n c) in *.
  assert (F : frame (region st) w w').
  { apply (frame_mono P); [|apply touches_frame; exact T]. intros c (n & I & C).
    eapply region_cells; [|exact C]. eapply part_valid; [exact Wf|]. eapply slot_part; exact I. }
  split; [exact F|]. apply csim_eq in Hs. destruct Hs as (E & B & S & U). split.
  - intros sl D.
    eapply cslot_intact; [exact Wf| |apply S]. intros n I.
    assert (Np : ~ P (cell_at st n) /\ ~ P (cell_at st (schema_name n))).
    { assert (In_ := slot_part _ _ _ I).
      split; intros (m & Im & C); assert (Imm := slot_part _ _ _ Im);
        assert (D' := slots_disjoint a sl sl0 n m ltac:(apply wf_eq in Wf; tauto) D I Im);
        destruct (unrelated_cells st m n) as [X Y]; eauto using part_valid, part_unrelated. }
    split; eapply touches_intact; eauto; tauto.
  - intros k x Hk. specialize (U k x Hk). unfold csub in *.
    assert (I := nth_error_In _ _ Hk). destruct (sub_valid _ _ _ Wf I) as [V Wx].
    assert (Np : forall k, under (path_join base (fst (fst x))) k -> ~ P (CFile k)).
    { intros k' Uk (m & Im & C). assert (Vm := part_valid _ _ _ Wf (slot_part _ _ _ Im)).
      destruct C as [C|C]; injection C as C.
      - exact (under_sub_res id base _ _ _ V Vm Uk C).
      - exact (under_sub_res id base _ _ _ V (valid_schema _ Vm) Uk C). }
    assert (Fe := files_frame P _ w w' (touches_frame _ _ _ T) Np).
    destruct (co_subs A k) as [| |A'].
    + intros k' U'. rewrite Fe by exact U'. auto.
    + eapply half_same; eauto.
    + destruct U as (id' & s' & Es & H). exists id', s'. split; [exact Es|].
      eapply csim_frame; [exact Wx|exact H|apply touches_frame; exact T|exact Np].
Qed.
Definition csame_at (a : adesc) st A s A' s' (sl : slot) : Prop :=
  forall w, cslot true a st A s sl w -> cslot true a st A' s' sl w.
Lemma clocal_step live a id base A s A' s' sl0 w w' : wf_archive true a -> let st := FileStorage id base in csim true a id base A s w ->
  bs_st s' = bs_st s -> bs_subs s' = bs_subs s -> co_subs A' = co_subs A ->
  (forall sl, sl <> sl0 -> csame_at a st A s A' s' sl) ->
  touches (fun c => exists n, In n (slot_names a sl0) /\ cells_of st n c) w w' ->
  cslot live a st A' s' sl0 w' ->
  csim live a id base A' s' w' /\ frame (region st) w w'.
Proof.
  intros Wf st Hs E1 E2 E3 Same T S0. destruct (clocal_rest _ _ _ _ _ _ _ _ Wf Hs T) as (F & S & U).
  split; [|exact F]. apply csim_eq in Hs. destruct Hs as (E & B & _). apply csim_eq.
  split; [congruence|]. split; [destruct F as (_ & _ & _ & F); lia|]. split.
  - intros sl. destruct (slot_eq_dec sl sl0) as [->|D]; [exact S0|]. apply cslot_live; [exact Wf|]. apply Same; auto.
  - intros k x Hk. specialize (U k x Hk). eapply csub_live in U; eauto. unfold csub in *. rewrite E3, E2. exact U.
Qed.

(** A step in a sub-archive. *)
Lemma csub_rest a id base A s w w' k x id' : wf_archive true a -> let st := FileStorage id base in
  csim true a id base A s w -> nth_error (ad_subs a) k = Some x ->
  let st' := FileStorage id' (path_join base (fst (fst x))) in
  frame (region st') w w' ->
  frame (region st) w w' /\ (forall sl, cslot true a st A s sl w') /\
  (forall k2 x2, k2 <> k -> nth_error (ad_subs a) k2 = Some x2 -> csub true base A s w' k2 x2).
Proof.
  intros Wf st Hs Hk st' F. assert (I := nth_error_In _ _ Hk). destruct (sub_valid _ _ _ Wf I) as [V Wx].
  assert (F' : frame (region st) w w').
  { eapply frame_mono; [|exact F]. intros c. apply region_sub. exact V. }
  split; [exact F'|]. apply csim_eq in Hs. destruct Hs as (E & B & S & U). split.
  - intros sl.
    eapply cslot_intact; [exact Wf| |apply S]. intros n In_. assert (Vn := part_valid _ _ _ Wf (slot_part _ _ _ In_)).
    split; (eapply frame_intact; [exact F|exact B|]); cbn [region cell_at st st']; intros R.
    + exact (under_sub_res id base _ n _ V Vn R eq_refl).
    + exact (under_sub_res id base _ (schema_name n) _ V (valid_schema _ Vn) R eq_refl).
  - intros k2 x2 D Hk2. specialize (U k2 x2 Hk2). assert (I2 := nth_error_In _ _ Hk2).
    destruct (sub_valid _ _ _ Wf I2) as [V2 Wx2]. unfold csub in *.
    assert (Dn : fst (fst x2) <> fst (fst x)).
    { intros En. apply wf_eq in Wf. destruct Wf as (_ & _ & _ & _ & _ & _ & _ & ND & _).
      apply D. eapply NoDup_nth_error; [exact ND| |].
      - rewrite map_length. apply nth_error_Some. congruence.
      - rewrite !nth_error_map, Hk, Hk2. simpl. congruence. }
    assert (Np : forall k', under (path_join base (fst (fst x2))) k' -> ~ region st' (CFile k')).
    { intros k' U' R. simpl in R. apply Dn. eapply under_sub_disjoint; eauto. }
    assert (Fe := files_frame _ _ w w' F Np).
    destruct (co_subs A k2) as [| |A2].
    + intros k' U'. rewrite Fe by exact U'. auto.
    + eapply half_same; eauto.
    + destruct U as (i2 & s2 & Es & H). exists i2, s2. split; [exact Es|].
      eapply csim_frame; [exact Wx2|exact H|exact F|exact Np].
Qed.
Lemma csub_step live a id base A s w w' k x id' f s' : wf_archive true a -> let st := FileStorage id base in
  csim true a id base A s w -> nth_error (ad_subs a) k = Some x ->
  let st' := FileStorage id' (path_join base (fst (fst x))) in
  frame (region st') w w' ->
  bs_st s' = bs_st s -> bs_vecs s' = bs_vecs s -> bs_muls s' = bs_muls s -> (forall k2, k2 <> k -> bs_subs s' k2 = bs_subs s k2) ->
  csub live base (co_sub k f A) s' w' k x ->
  csim live a id base (co_sub k f A) s' w' /\ frame (region st) w w'.
Proof.
  intros Wf st Hs Hk st' F E1 E2 E3 E4 H1. destruct (csub_rest _ _ _ _ _ _ _ _ _ _ Wf Hs Hk F) as (F' & S & U).
  split; [|exact F']. apply csim_eq in Hs. destruct Hs as (E & B & _). apply csim_eq.
  split; [congruence|]. split; [destruct F as (_ & _ & _ & F); lia|]. split.
  - intros sl. apply cslot_live; [exact Wf|]. specialize (S sl). destruct sl; cbn [cslot co_sub co_structs co_vecs co_muls co_raws] in *;
      rewrite ?E2, ?E3; exact S.
  - intros k2 x2 Hk2. destruct (Nat.eq_dec k2 k) as [->|D].
    + rewrite Hk in Hk2. injection Hk2 as <-. exact H1.
    + specialize (U k2 x2 D Hk2). eapply csub_live in U; eauto. unfold csub, co_sub in *. cbn [co_subs]. rewrite nupd_other by exact D.
      rewrite E4 by exact D. exact U.
Qed.

(** * New builders *)
Lemma half_void a base w : (forall k, under base k -> w_files w k = None) -> valid_name (signature_name (ad_name a)) -> half a base w.
Proof.
  intros H V. split; [auto|]. apply only_none. cbn [cell_at bytes_at]. apply H. apply (under_res 0). exact V.
Qed.
Lemma half_names a id base w m : wf_archive true a -> half a base w -> In m (part_names a) -> m <> signature_name (ad_name a) ->
  let st := FileStorage id base in bytes_at (cell_at st m) w = None /\ bytes_at (cell_at st (schema_name m)) w = None.
Proof.
  intros Wf [H _] I D st. set (n := signature_name (ad_name a)) in *.
  assert (Vn : valid_name n) by (apply signature_valid; apply wf_eq in Wf; tauto). assert (V := part_valid _ _ _ Wf I).
  destruct (unrelated_cells st n m Vn V) as [X Y]; [eapply part_unrelated; eauto; left; reflexivity|].
  cbn [st cell_at bytes_at]. split; apply H.
  - apply (under_res id). exact V.
  - intros C. apply X. left. cbn [st cell_at]. f_equal. exact C.
  - intros C. apply X. right. cbn [st cell_at]. f_equal. exact C.
  - apply (under_res id). apply valid_schema. exact V.
  - intros C. apply Y. left. cbn [st cell_at]. f_equal. exact C.
  - intros C. apply Y. right. cbn [st cell_at]. f_equal. exact C.
Qed.
Lemma half_slots live a id base w s sl : wf_archive true a -> half a base w -> (live = true -> forall p, w_maps w id p = None) ->
  sl <> SSig -> cslot live a (FileStorage id base) no_course s sl w.
Proof.
  intros Wf H M D. set (n := signature_name (ad_name a)) in *.
  assert (Ns : forall m sch, In m (slot_names a sl) -> fslot live (FileStorage id base) m sch (Known None) w).
  { intros m sch I. split; [intros L; split; cbn [unused]; apply (M L)|]. apply (half_names a); [exact Wf|exact H|eapply slot_part; eauto|].
    fold n. intros ->.
    eapply (slots_disjoint a sl SSig n n); [apply wf_eq in Wf; tauto|exact D|exact I|left; reflexivity|reflexivity]. }
  destruct sl as [|k|k|k|k]; cbn [cslot no_course co_structs co_vecs co_muls co_raws slot_names] in *; [congruence|..].
  - destruct (nth_error (ad_structs a) k); simpl; auto. apply Ns. left; auto.
  - destruct (nth_error (ad_vectors a) k); simpl; auto. apply Ns. left; auto.
  - destruct (nth_error (ad_multis a) k); simpl; auto. split; apply Ns; simpl; auto.
  - destruct (nth_error (ad_raws a) k); simpl; auto. apply Ns. left; auto.
Qed.
Lemma half_subs a base w k x : wf_archive true a -> half a base w -> nth_error (ad_subs a) k = Some x ->
  forall k', under (path_join base (fst (fst x))) k' -> w_files w k' = None.
Proof.
  intros Wf [H _] Hk k' U. assert (I := nth_error_In _ _ Hk). destruct (sub_valid _ _ _ Wf I) as [V _].
  assert (Vn : valid_name (signature_name (ad_name a))) by (apply signature_valid; apply wf_eq in Wf; tauto).
  apply H.
  - exact (under_sub _ _ _ V U).
  - exact (under_sub_res 0 base _ _ _ V Vn U).
  - exact (under_sub_res 0 base _ _ _ V (valid_schema _ Vn) U).
Qed.

Lemma cbuilder_new b e a id base w o w' : wf_archive true a -> let st := FileStorage id base in
  maps_ok w -> (id < w_next w)%nat -> (forall p, w_maps w id p = None) -> half a base w ->
  builder_new b e a st w = (o, w') ->
  frame (region st) w w' /\ maps_ok w' /\
  ((o = Ret (Ok st) /\ csim true a id base no_course (new_bstate st) w') \/ ((forall x, o <> Ret (Ok x)) /\ half a base w')).
Proof.
  intros Wf st M Hid Hm H R. assert (Wf' := Wf). apply wf_eq in Wf' as (Hi & Hs & _).
  set (n := signature_name (ad_name a)) in *. assert (Vn := signature_valid _ Hi). fold n in Vn.
  assert (De : data_ok []) by (split; [constructor|discriminate]).
  (* what can happen *)
  assert (X : (touches nothing w w' /\ same_caches w w' /\ (forall x, o <> Ret (Ok x))) \/
     exists w2 o2 ok, touches nothing w w2 /\ same_caches w w2 /\ write b e st n (ad_schema a) [] w2 = (o2, w') /\
       (o2 = Ret (Ok tt) /\ ok = true /\ o = Ret (Ok st) \/ o2 <> Ret (Ok tt) /\ ok = false /\ forall x, o <> Ret (Ok x))).
  { unfold builder_new, mtry in R. unfold create_archive in R.
    assert (Ex : forall o w2, exists_ st (signature_name (ad_name a)) w = (o, w2) -> touches nothing w w2 /\ same_caches w w2).
    { intros o0 w2 Rx. unfold exists_, path_exists in Rx. cbn [st] in Rx.
      assert (Sy : forall o w2, syscall (fun w => (Ret (Ok (on_disk (res_key st (signature_name (ad_name a))) w)), w)) w = (o, w2) ->
        touches nothing w w2 /\ same_caches w w2).
      { intros o2 w3 Sx. unfold syscall, next_fault in Sx.
        destruct (w_faults w) as [|f fs]; [injection Sx as _ <-; split; [apply touches_refl|apply same_caches_refl]|].
        assert (w3 = set_faults fs w) by (destruct f; congruence). subst w3. split; [apply touches_faults|split; reflexivity]. }
      apply bind_any in Rx as [(r & w3 & Rx & Ry)|(o3 & Rx & _)]; [|eauto].
      assert (w2 = w3) by (destruct r; injection Ry; auto). subst w3. eauto. }
    apply bind_any in R as [(r & w1 & R & R')|(o1 & R & N1 & N2)].
    - apply bind_any in R as [(ex & w2 & Rx & R)|(o2 & Rx & N & N')]; [|exfalso; eapply N'; reflexivity].
      destruct (Ex _ _ Rx) as [T0 C0]. destruct ex.
      + injection R as <- <-. injection R' as <- <-. left. split; [exact T0|]. split; [exact C0|discriminate].
      + right. apply bind_any in R as [(r2 & w3 & R & R2)|(o2 & R & N & N')]; [|exfalso; eapply N'; reflexivity].
        exists w2, (Ret r2). fold n in R.
        destruct r2 as [[]|r2]; injection R2 as <- <-; injection R' as <- <-.
        * exists true. split; [exact T0|]. split; [exact C0|]. split; [exact R|]. left. auto.
        * exists false. split; [exact T0|]. split; [exact C0|]. split; [exact R|]. right.
          split; [discriminate|]. split; [reflexivity|discriminate].
    - assert (No : forall x, o <> Ret (Ok x)) by (intros x; apply N2).
      apply bind_any in R as [(ex & w2 & Rx & R)|(o2 & Rx & N & N')].
      + destruct (Ex _ _ Rx) as [T0 C0]. destruct ex; [injection R as <- <-; exfalso; eapply N1; reflexivity|].
        right. apply bind_any in R as [(r2 & w3 & R & R2)|(o2 & R & N & N')].
        * destruct r2 as [[]|r2]; injection R2 as <- <-; exfalso; eapply N1; reflexivity.
        * exists w2, o2, false. split; [exact T0|]. split; [exact C0|]. split; [exact R|]. right. split; [apply N|]. auto.
      + destruct (Ex _ _ Rx) as [T0 C0]. left. auto. }
  assert (Np : forall c, ~ @nothing c) by (intros c []).
  destruct X as [(T0 & C0 & No)|(w2 & o2 & ok & T0 & C0 & Wr & Ho)].
  - split; [apply touches_frame, touches_nothing; exact T0|]. split; [eapply maps_ok_caches; eauto|]. right. split; [exact No|].
    eapply half_same; [exact Wf| |exact H]. intros k _. destruct T0 as (_ & T0 & _). apply T0. apply Np.
  - assert (E2 : forall k, w_files w2 k = w_files w k) by (intros k; destruct T0 as (_ & T0 & _); apply T0; apply Np).
    assert (H2 : half a base w2) by (eapply half_same; [exact Wf| |exact H]; auto).
    assert (M2 : maps_ok w2) by (eapply maps_ok_caches; eauto).
    assert (Hm2 : forall p, w_maps w2 id p = None) by (intros p; destruct C0 as (_ & ->); apply Hm).
    destruct (write_fslot b e st n (ad_schema a) [] (Unsure [[]]) w2 o2 w' ok) as [T S]; auto.
    { split; [intros _; split; apply Hm2|]. apply (proj2 H2). }
    { destruct Ho as [(? & ? & _)|(? & ? & _)]; auto. }
    assert (F : frame (region st) w w').
    { eapply frame_trans; [apply touches_frame, touches_nothing; exact T0|].
      eapply frame_mono; [|apply touches_frame; apply T]. intros c. apply region_cells. exact Vn. }
    split; [exact F|]. split; [eapply step_maps; eauto|].
    assert (H' : forall k, under base k -> k <> res_key st n -> k <> res_key st (schema_name n) -> w_files w' k = None).
    { intros k U N1 N2. destruct T as ((_ & T & _) & _). rewrite T; [apply (proj1 H2); auto|].
      intros [C|C]; cbn [st cell_at] in C; congruence. }
    assert (O : only [[]] st n w').
    { apply fslot_only in S. eapply only_mono; [|exact S]. intros d I. destruct ok; cbn in *; tauto. }
    assert (Hh : half a base w') by (split; assumption).
    destruct Ho as [(_ & -> & ->)|(_ & -> & No)]; [left|right; auto].
    split; [reflexivity|]. apply csim_eq. split; [reflexivity|]. split; [destruct F as (_ & _ & _ & F); lia|]. split.
    + intros sl. destruct (slot_eq_dec sl SSig) as [->|D]; [exact S|]. apply half_slots; auto.
      intros _ p. destruct T as (_ & (_ & ->) & _). apply Hm2.
    + intros k x Hk. unfold csub. cbn [no_course co_subs]. eapply half_subs; eauto.
Qed.

(** * One call *)
Lemma bind_map2 {A B} (m : M A) (f : A -> B) w o w' : mbind m (fun x => mret (f x)) w = (o, w') ->
  (exists x, m w = (Ret x, w') /\ o = Ret (f x)) \/
  (exists o1, m w = (o1, w') /\ (forall x, o1 <> Ret x) /\ forall y, o <> Ret y).
Proof.
  intros H. apply bind_any in H as [(x & w1 & H & R)|(o1 & H & N & N')].
  - injection R as <- <-. left. eauto.
  - right. eauto.
Qed.
(** A call returned and said whether it succeeded, or did not return. *)
Definition went (oc : outcome (bool * bstate)) (ok : bool) (s s' : bstate) (live : bool) : Prop :=
  (oc = Ret (ok, s') /\ live = true) \/ ((forall x, oc <> Ret x) /\ ok = false /\ s' = s /\ live = false).
Lemma went_set {E} (m : M (result unit E)) s w oc w' ok s' live :
  mbind m (fun x => mret (is_ok x, s)) w = (oc, w') -> went oc ok s s' live ->
  exists o, m w = (o, w') /\ (o = Ret (Ok tt) /\ ok = true \/ o <> Ret (Ok tt) /\ ok = false) /\ s' = s.
Proof.
  intros R [[-> _]|(N & -> & -> & _)]; apply bind_map2 in R as [(x & R & E')|(o1 & R & N1 & N2)].
  - injection E' as -> ->. exists (Ret x). split; [exact R|]. split; [|reflexivity].
    destruct x as [[]|x]; [left; auto|right; split; [discriminate|reflexivity]].
  - exfalso. eapply N2; reflexivity.
  - destruct (N _ E').
  - exists o1. split; [exact R|]. split; [|reflexivity]. right. auto.
Qed.
Ltac csame_slots := intros sl D ? H; destruct sl as [|j|j|j|j]; try exact H;
  cbn [cslot co_struct co_vec co_mul co_raw put_vec put_mul co_structs co_vecs co_muls co_raws bs_vecs bs_muls] in *;
  rewrite ?nupd_other by congruence; try exact H.

Lemma cwrite_slot live b e a id base A s A' sl n schema d f ok w o w' : wf_archive true a -> let st := FileStorage id base in
  csim true a id base A s w ->
  slot_names a sl = [n] -> fslot true st n schema f w -> data_ok d -> maps_ok w ->
  co_subs A' = co_subs A -> (forall sl', sl' <> sl -> csame_at a st A s A' s sl') ->
  write b e st n schema d w = (o, w') ->
  (o = Ret (Ok tt) /\ ok = true \/ o <> Ret (Ok tt) /\ ok = false) ->
  (fslot live st n schema (tried ok d f) w' -> cslot live a st A' s sl w') ->
  csim live a id base A' s w' /\ frame (region st) w w' /\ maps_ok w'.
Proof.
  intros Wf st Hs Hn Sl Do M E Same R Ho K.
  destruct (write_fslot b e st n schema d f w o w' ok eq_refl Sl Do R Ho) as [T S].
  destruct (clocal_step live a id base A s A' s sl w w' Wf Hs eq_refl eq_refl E Same) as [X Y].
  - eapply touches_mono; [|apply T]. intros c C. exists n. rewrite Hn. split; [left; auto|exact C].
  - apply K. apply fslot_live. exact S.
  - split; [exact X|]. split; [exact Y|]. eapply step_maps; eauto.
Qed.

Lemma ctry_step b e lim o : forall a id base A s w ok A' oc s' live w', let st := FileStorage id base in
  wf_archive true a -> maps_ok w -> csim true a id base A s w -> tries a A o ok A' -> (tidy = true -> w_faults w = []) ->
  bstep b e lim a o s w = (oc, w') -> went oc ok s s' live ->
  csim live a id base A' s' w' /\ frame (region st) w w' /\ maps_ok w'.
Proof.
  induction o as [k m|k v|k|k sets|k|k|k items|k|k d|k|k o IH]; intros a id base A s w ok A' oc s' live w' st Wf M Hs Hm Td R Hw;
    inversion Hm; subst; cbn [bstep] in R;
    assert (Est : bs_st s = st) by (apply csim_eq in Hs; tauto); rewrite ?Est in R;
    assert (Ws := Wf); apply wf_eq in Ws; destruct Ws as (_ & _ & _ & Ws & Wv & Wm & Wr & _ & Wu);
    rewrite Forall_forall in Ws, Wv, Wm, Wr, Wu;
    match goal with H : nth_error _ _ = Some _ |- _ => assert (I := nth_error_In _ _ H); rename H into Hk end;
    try match goal with
    | H : co_vecs _ _ = _ |- _ => rename H into Hp
    | H : co_muls _ _ = _ |- _ => rename H into Hp
    | H : co_muls _ _ = _ \/ _ |- _ => rename H into Hp
    | H : co_subs _ _ = _ |- _ => rename H into Hp
    | H : co_subs _ _ = _ \/ _ |- _ => rename H into Hp
    end;
    try match goal with
    | H : sets_ok _ _ |- _ => rename H into Hok
    | H : items_ok _ _ |- _ => rename H into Hok
    | H : tries _ _ _ _ _ |- _ => match type of Hm with ?T => match type of H with T => fail 1 | _ => rename H into Hok end end
    end;
    rewrite ?Hk in R; cbn [with_some] in R;
    assert (S := Hs); apply csim_eq in S; destruct S as (_ & Hid & S & U).
  - (* struct *)
    destruct (went_set _ _ _ _ _ _ _ _ R Hw) as (o1 & R1 & Ho & ->). specialize (S (SStruct k)). cbn [cslot] in S. rewrite Hk in S. cbn [at_slot] in S.
    unfold set_struct in R1. replace (_ <=? _) with true in R1 by (symmetry; apply Z.leb_le; assumption).
    eapply (cwrite_slot live b e a id base A s _ (SStruct k)); eauto.
    + cbn [slot_names]. rewrite Hk. reflexivity.
    + split; [apply bytes_ok_firstn; assumption|]. unfold len. rewrite firstn_length. unfold len in *.
      assert (16 <= isize_max) by discriminate. lia.
    + csame_slots.
    + intros K. cbn [cslot]. rewrite Hk. cbn [at_slot co_struct co_structs]. rewrite nupd_same. exact K.
  - (* vector *)
    destruct (went_set _ _ _ _ _ _ _ _ R Hw) as (o1 & R1 & Ho & ->). specialize (S (SVec k)). cbn [cslot] in S. rewrite Hk, Hp in S. cbn [at_slot vfslot] in S.
    unfold set_vector in R1.
    eapply (cwrite_slot live b e a id base A s _ (SVec k)); eauto.
    + cbn [slot_names]. rewrite Hk. reflexivity.
    + apply sl_bytes_data; assumption.
    + csame_slots.
    + intros K. cbn [cslot]. rewrite Hk. cbn [at_slot co_vec co_vecs]. rewrite nupd_same. exact K.
  - (* start vector *)
    specialize (S (SVec k)). cbn [cslot] in S. rewrite Hk, Hp in S. cbn [at_slot vfslot] in S.
    assert (R1 : exists o1, start_vector b e st r w = (o1, w') /\
       ((exists v, o1 = Ret (Ok v) /\ ok = true /\ s' = put_vec k (Some v) s /\ live = true) \/
        ((forall v, o1 <> Ret (Ok v)) /\ ok = false /\ s' = s))).
    { apply bind_map2 in R as [(x & R & E')|(o1 & R & N1 & N2)].
      - exists (Ret x). split; [exact R|]. destruct Hw as [[-> Hl]|(N & _)]; [|destruct (N _ E')].
        destruct x as [v|x]; injection E' as -> ->; [left; eauto|right; split; [discriminate|auto]].
      - exists o1. split; [exact R|]. right. split; [auto|]. destruct Hw as [[-> _]|(_ & -> & -> & _)]; [exfalso; eapply N2; reflexivity|auto]. }
    clear R. destruct R1 as (o1 & R & Ho).
    assert (Fr := proj1 S eq_refl).
    destruct (create_ev_cases b e st _ _ (tr_struct r) w _ w' Fr R) as [T C].
    assert (Tt : touches (fun c => exists n, In n (slot_names a (SVec k)) /\ cells_of st n c) w w').
    { eapply touches_mono; [|apply T]. intros c C0. exists (tr_name r). cbn [slot_names]. rewrite Hk. split; [left; auto|exact C0]. }
    destruct C as [(v & -> & Hv)|(_ & Fa & _ & P)].
    + destruct Ho as [(v' & E & -> & -> & ->)|(N & _)]; [injection E as <-|destruct (N _ eq_refl)].
      edestruct (clocal_step true a id base A s) as [X Y]; [exact Wf|exact Hs| | | | |exact Tt| |].
      6:{ split; [exact X|]. split; [exact Y|]. eapply step_maps; eauto. }
      all: try reflexivity.
      * csame_slots.
      * cbn [cslot]. rewrite Hk. cbn [at_slot co_vec co_vecs put_vec bs_vecs]. rewrite !nupd_same. cbn [vfslot].
        split; [discriminate|]. exists v, [], [], (zeros 8). split; [reflexivity|]. split; [reflexivity|]. exact Hv.
    + destruct Ho as [(v' & -> & _)|(_ & -> & ->)]; [destruct Fa as [[kk Fa]|Fa]; discriminate Fa|].
      edestruct (clocal_step live a id base A s) as [X Y]; [exact Wf|exact Hs| | | | |exact Tt| |].
      6:{ split; [exact X|]. split; [exact Y|]. eapply step_maps; eauto. }
      all: try reflexivity.
      * csame_slots.
      * cbn [cslot]. rewrite Hk. cbn [at_slot co_vec co_vecs]. rewrite !nupd_same. cbn [vfslot].
        split; [intros _; eapply step_fresh; eauto|]. eapply create_only; [eapply fslot_only; exact S|exact P].
  - (* grow *)
    specialize (S (SVec k)). cbn [cslot] in S. rewrite Hk, Hp in S. cbn [at_slot vfslot] in S.
    destruct S as (Sz & v & W & rest & c & Ev & Ti & Hv). rewrite Ev in R. cbn [with_some] in R.
    destruct (Wv r I) as [[_ So] Wst].
    assert (Ll : Z.of_nat (length (elements (tr_struct r) l)) = Z.of_nat (length l)) by (rewrite elements_length; reflexivity).
    assert (R1 : exists o1, ev_step b e lim (tr_struct r) (EGrow sets) v w = (o1, w') /\
       ((exists v2, o1 = Ret (ok, v2) /\ s' = put_vec k (Some v2) s /\ live = true) \/
        ((forall x, o1 <> Ret x) /\ ok = false /\ s' = s /\ live = false))).
    { apply bind_map2 in R as [([f1 v2] & R & E')|(o1 & R & N1 & N2)].
      - exists (Ret (f1, v2)). split; [exact R|]. left. destruct Hw as [[-> Hl]|(N & _)]; [|destruct (N _ E')].
        injection E' as -> ->. eauto.
      - exists o1. split; [exact R|]. right. split; [auto|]. destruct Hw as [[-> _]|(_ & -> & -> & ->)]; [exfalso; eapply N2; reflexivity|auto]. }
    clear R. destruct R1 as (o1 & R & Ho).
    destruct (ev_step_cases b e lim _ sets st _ _ v w _ W rest _ _ w' Wst Hok Hv ltac:(rewrite Ll; lia) R) as [T C].
    assert (Tt : touches (fun c => exists n, In n (slot_names a (SVec k)) /\ cells_of st n c) w w').
    { eapply touches_mono; [|apply T]. intros c0 <-. exists (tr_name r). cbn [slot_names]. rewrite Hk. split; [left; auto|left; auto]. }
    edestruct (clocal_step live a id base A s) as [X Y]; [exact Wf|exact Hs| | | | |exact Tt| |].
    6:{ split; [exact X|]. split; [exact Y|]. eapply step_maps; eauto. }
    + destruct Ho as [(v2 & _ & -> & _)|(_ & _ & -> & _)]; reflexivity.
    + destruct Ho as [(v2 & _ & -> & _)|(_ & _ & -> & _)]; reflexivity.
    + reflexivity.
    + destruct Ho as [(v2 & _ & -> & _)|(_ & _ & -> & _)]; csame_slots.
    + cbn [cslot]. rewrite Hk. cbn [at_slot co_vec co_vecs]. rewrite !nupd_same. cbn [vfslot].
      destruct C as [(v2 & W2 & r2 & c2 & E & Hv2 & Hc)|(_ & Nf & [(v2 & c2 & E & Hv2)|[E Us]])].
      * destruct Ho as [(v3 & E3 & -> & ->)|(N & _)]; [|destruct (N _ E)]. rewrite E in E3. injection E3 as <- <-.
        split; [rewrite app_length, Nat2Z.inj_add; cbn [length]; lia|]. cbn [put_vec bs_vecs]. rewrite nupd_same.
        exists v2, W2, r2, c2. split; [reflexivity|]. split; [auto|]. rewrite elements_snoc. exact Hv2.
      * destruct Ho as [(v3 & E3 & -> & ->)|(N & _)]; [|destruct (N _ E)]. rewrite E in E3. injection E3 as <- <-.
        split; [exact Sz|]. cbn [put_vec bs_vecs]. rewrite nupd_same.
        exists v2, W, rest, c2. split; [reflexivity|]. split; [intros Et; destruct (Nf (Td Et))|]. exact Hv2.
      * destruct Ho as [(v3 & E3 & _)|(_ & -> & -> & ->)]; [congruence|]. exact Us.
  - (* close *)
    specialize (S (SVec k)). cbn [cslot] in S. rewrite Hk, Hp in S. cbn [at_slot vfslot] in S.
    destruct S as (Sz & v & W & rest & c & Ev & Ti & Hv). rewrite Ev in R. cbn [with_some] in R.
    destruct (Wv r I) as [[_ So] Wst].
    assert (Ll : Z.of_nat (length (elements (tr_struct r) l)) = Z.of_nat (length l)) by (rewrite elements_length; reflexivity).
    destruct (ev_inv_bytes _ _ _ _ _ _ _ _ _ _ Hv) as (BW & Br & Lb). rewrite Ll in Lb.
    assert (Do : data_ok (W ++ rest)).
    { split; [apply bytes_ok_app; auto|]. rewrite len_app. lia. }
    assert (R1 : exists o1, ev_close b e v w = (o1, w') /\
       ((exists sl, o1 = Ret (Ok sl) /\ ok = true) \/ ((forall sl, o1 <> Ret (Ok sl)) /\ ok = false)) /\
       (s' = put_vec k None s \/ s' = s)).
    { apply bind_map2 in R as [(x & R & E')|(o1 & R & N1 & N2)].
      - exists (Ret x). split; [exact R|]. destruct Hw as [[-> Hl]|(N & _)]; [|destruct (N _ E')].
        injection E' as -> ->. split; [|auto]. destruct x as [sl|x]; [left; eauto|right; split; [discriminate|auto]].
      - exists o1. split; [exact R|]. destruct Hw as [[-> _]|(_ & -> & -> & ->)]; [exfalso; eapply N2; reflexivity|].
        split; [right; split; [auto|reflexivity]|auto]. }
    clear R. destruct R1 as (o1 & R & Ho & Hs').
    destruct (ev_close_cases b e st _ _ _ v w _ W rest _ _ w' Hv M (schema_ok_like _ st _ eq_refl So) ltac:(lia) R)
      as (T & _ & M1 & C).
    assert (Lo : loose (W ++ rest) (c ++ rest)).
    { destruct Hv as (_ & _ & _ & _ & Hv). apply loose_write. eapply writing_loose; eauto. }
    assert (Bc : bytes_ok (c ++ rest)) by (apply bytes_ok_app; split; [apply Hv|exact Br]).
    destruct Hv as (_ & _ & _ & (ms & Ems & G) & _).
    assert (Ar : array_of (tr_struct r) (W ++ rest) (elements (tr_struct r) l)).
    { rewrite Ems. exists ms. split; [reflexivity|exact (goods_encodes _ _ _ G)]. }
    assert (Re : records (tr_struct r) (W ++ rest) = elements (tr_struct r) l) by (rewrite Ems; apply goods_records; auto).
    edestruct (clocal_step live a id base A s (co_vec k (if ok then VDone l else VDead l) A) s' (SVec k)) as [X Y]; [exact Wf|exact Hs| | | | | | |].
    7:{ split; [exact X|]. split; [exact Y|exact M1]. }
    + destruct Hs' as [->| ->]; reflexivity.
    + destruct Hs' as [->| ->]; reflexivity.
    + reflexivity.
    + destruct Hs' as [->| ->]; csame_slots.
    + eapply touches_mono; [|apply T]. intros c0 C0. exists (tr_name r). cbn [slot_names]. rewrite Hk. split; [left; auto|exact C0].
    + cbn [cslot]. rewrite Hk. cbn [at_slot co_vec co_vecs]. rewrite !nupd_same.
      destruct Ho as [(sl & -> & ->)|(N & ->)]; cbn [vfslot].
      * destruct C as [(_ & _ & [E|E] & _)|(B1 & B2 & _ & _ & C)]; try discriminate E.
        exists (W ++ rest), (sealed (W ++ rest) (c ++ rest)). split; [exact Do|]. split; [exact Ar|]. split; [exact Re|].
        split; [exact B1|]. split; [exact B2|]. intros L. rewrite (sealed_len _ _ Lo) in L.
        destruct C as [(r' & E & C & _)|C]; [|lia]. injection E as <-. apply (C sl eq_refl L).
      * exists (W ++ rest). split; [exact Do|]. split; [exact Ar|]. split; [exact Re|].
        destruct C as [(_ & _ & _ & C)|(B1 & B2 & _)]; [exact C|]. eapply sealed_unfinished; [exact Lo|exact Bc|exact B1|exact B2].
  - (* start multi *)
    specialize (S (SMul k)). cbn [cslot] in S. rewrite Hk in S. cbn [at_slot] in S.
    assert (R1 : exists o1, start_multi b e st r w = (o1, w') /\
       ((exists v, o1 = Ret (Ok v) /\ ok = true /\ s' = put_mul k (Some v) s /\ live = true) \/
        ((forall v, o1 <> Ret (Ok v)) /\ ok = false /\ s' = s))).
    { apply bind_map2 in R as [(x & R & E')|(o1 & R & N1 & N2)].
      - exists (Ret x). split; [exact R|]. destruct Hw as [[-> Hl]|(N & _)]; [|destruct (N _ E')].
        destruct x as [v|x]; injection E' as -> ->; [left; eauto|right; split; [discriminate|auto]].
      - exists o1. split; [exact R|]. right. split; [auto|]. destruct Hw as [[-> _]|(_ & -> & -> & _)]; [exfalso; eapply N2; reflexivity|auto]. }
    clear R. destruct R1 as (o1 & R & Ho).
    destruct (Wm r I) as (Wi & En & So & Wis & Wts & Sz).
    assert (Vn := identifier_valid _ Wi).
    assert (S' : fslot true st (index_name (mr_name r)) (index_schema (mr_schema r)) (Unsure [[]]) w /\
      fslot true st (mr_name r) (mr_schema r) (Unsure [[]]) w).
    { rewrite <- En. destruct Hp as [E|E]; rewrite E in S; cbn [mfslot] in S; [|exact S].
      destruct S as [S1 S2]. split; (split; [apply S1|] || (split; [apply S2|])); eapply only_mono; try (eapply fslot_only; eassumption); intros x []. }
    clear S. destruct S' as [S1 S2].
    destruct (create_mv_cases b e (mr_size r) (mr_bits r) (mr_types r) st (mr_name r) (mr_schema r) Vn w _ w'
      (conj (proj1 S2 eq_refl) (proj1 S1 eq_refl)) R) as [T C].
    assert (Tt : touches (fun c => exists n, In n (slot_names a (SMul k)) /\ cells_of st n c) w w').
    { eapply touches_mono; [|apply T]. intros c C0. cbn [slot_names]. rewrite Hk. cbn [opt_list].
      destruct C0 as [C0|C0]; [exists (mr_name r)|exists (mr_index r); rewrite En]; split; simpl; auto. }
    destruct C as [(v & -> & Hv)|(_ & Fa & _ & P)].
    + destruct Ho as [(v' & E & -> & -> & ->)|(N & _)]; [injection E as <-|destruct (N _ eq_refl)].
      edestruct (clocal_step true a id base A s) as [X Y]; [exact Wf|exact Hs| | | | |exact Tt| |].
      6:{ split; [exact X|]. split; [exact Y|]. eapply step_maps; eauto. }
      all: try reflexivity.
      * csame_slots.
      * cbn [cslot]. rewrite Hk. cbn [at_slot co_mul co_muls put_mul bs_muls]. rewrite !nupd_same. cbn [mfslot buckets_size].
        split; [apply Z.pow_pos_nonneg; [lia|]; exact (index_bits_nonneg _ _ Wis)|].
        split; [discriminate|]. split; [cbn [length]; lia|]. exists v, [], true. split; [reflexivity|]. split; [reflexivity|]. split; [reflexivity|]. exact Hv.
    + destruct Ho as [(v' & -> & _)|(_ & -> & ->)]; [destruct Fa as [[[kk Fa]|Fa]|Fa]; discriminate Fa|].
      edestruct (clocal_step live a id base A s) as [X Y]; [exact Wf|exact Hs| | | | |exact Tt| |].
      6:{ split; [exact X|]. split; [exact Y|]. eapply step_maps; eauto. }
      all: try reflexivity.
      * csame_slots.
      * cbn [cslot]. rewrite Hk. cbn [at_slot co_mul co_muls]. rewrite !nupd_same. cbn [mfslot]. rewrite En.
        assert (F1 := step_fresh _ st _ _ _ T eq_refl (proj1 S1 eq_refl)). assert (F2 := step_fresh _ st _ _ _ T eq_refl (proj1 S2 eq_refl)).
        split; (split; [auto|]).
        { destruct P as [[P _]|[Us _]]; [eapply create_only; [apply S1|exact P]|eapply only_unsealed; exact Us]. }
        { destruct P as [[_ P]|[_ P]]; [|eapply create_only; [apply S2|exact P]].
          destruct (index_cells st (mr_name r) Vn) as ((NC1 & NC2) & _). eapply only_intact; [|apply S2]. exact (touches_intact _ _ _ _ _ P NC1). }
  - (* multi grow *)
    specialize (S (SMul k)). cbn [cslot] in S. rewrite Hk, Hp in S. cbn [at_slot mfslot] in S.
    destruct S as (S1 & S2 & S3 & v & bs & clean & Ev & Ti & Lb & Hv). rewrite Ev in R. cbn [with_some] in R.
    destruct (Wm r I) as (Wi & En & So & Wis & Wts & Sz). assert (Vn := identifier_valid _ Wi).
    assert (Ll := mv_inv_length _ _ _ _ _ _ _ _ _ _ _ _ Hv). unfold buckets in Ll. rewrite map_length in Ll.
    rewrite buckets_size_snoc in *.
    assert (R1 : exists o1, mv_step b e lim (mr_size r) (mr_bits r) (mr_types r) (MGrow items) v w = (o1, w') /\
       ((exists v2, o1 = Ret (ok, v2) /\ s' = put_mul k (Some v2) s /\ live = true) \/
        ((forall x, o1 <> Ret x) /\ ok = false /\ s' = s /\ live = false))).
    { apply bind_map2 in R as [([f1 v2] & R & E')|(o1 & R & N1 & N2)].
      - exists (Ret (f1, v2)). split; [exact R|]. left. destruct Hw as [[-> Hl]|(N & _)]; [|destruct (N _ E')].
        injection E' as -> ->. eauto.
      - exists o1. split; [exact R|]. right. split; [auto|]. destruct Hw as [[-> _]|(_ & -> & -> & ->)]; [exfalso; eapply N2; reflexivity|auto]. }
    clear R. destruct R1 as (o1 & R & Ho).
    destruct (mv_step_cases b e lim (mr_size r) (mr_bits r) (mr_types r) st (mr_name r) (mr_schema r) Wis Wts Vn
                items v w _ bs clean _ w' Hok Hv ltac:(lia) ltac:(lia) ltac:(rewrite <- Ll; lia) R) as [T C].
    assert (Tt : touches (fun c => exists n, In n (slot_names a (SMul k)) /\ cells_of st n c) w w').
    { eapply touches_mono; [|apply T]. intros c C0. cbn [slot_names]. rewrite Hk. cbn [opt_list].
      destruct C0 as [C0|C0]; [exists (mr_name r)|exists (mr_index r); rewrite En]; split; simpl; auto. }
    edestruct (clocal_step live a id base A s) as [X Y]; [exact Wf|exact Hs| | | | |exact Tt| |].
    6:{ split; [exact X|]. split; [exact Y|]. eapply step_maps; eauto. }
    + destruct Ho as [(v2 & _ & -> & _)|(_ & _ & -> & _)]; reflexivity.
    + destruct Ho as [(v2 & _ & -> & _)|(_ & _ & -> & _)]; reflexivity.
    + reflexivity.
    + destruct Ho as [(v2 & _ & -> & _)|(_ & _ & -> & _)]; csame_slots.
    + cbn [cslot]. rewrite Hk. cbn [at_slot co_mul co_muls]. rewrite !nupd_same. cbn [mfslot].
      destruct C as [(v2 & bytes & E & Lby & Hv2)|(_ & Nf & [(v2 & E & Hv2)|[E Us]])].
      * destruct Ho as [(v3 & E3 & -> & ->)|(N & _)]; [|destruct (N _ E)]. rewrite E in E3. injection E3 as <- <-.
        rewrite buckets_size_snoc. split; [lia|]. split; [lia|].
        split; [rewrite app_length, Nat2Z.inj_add; cbn [length]; lia|]. cbn [put_mul bs_muls]. rewrite nupd_same.
        exists v2, (bs ++ [bytes]), clean. split; [reflexivity|]. split; [exact Ti|]. split.
        { rewrite concat_app, len_app. cbn [concat]. rewrite app_nil_r. lia. }
        { rewrite buckets_snoc. exact Hv2. }
      * destruct Ho as [(v3 & E3 & -> & ->)|(N & _)]; [|destruct (N _ E)]. rewrite E in E3. injection E3 as <- <-.
        split; [exact S1|]. split; [exact S2|]. split; [exact S3|]. cbn [put_mul bs_muls]. rewrite nupd_same.
        exists v2, bs, false. split; [reflexivity|]. split; [intros Et; destruct (Nf (Td Et))|]. auto.
      * destruct Ho as [(v3 & E3 & _)|(_ & -> & -> & ->)]; [congruence|]. destruct Us as [U1 U2]. rewrite En. auto.
  - (* multi close *)
    specialize (S (SMul k)). cbn [cslot] in S. rewrite Hk, Hp in S. cbn [at_slot mfslot] in S.
    destruct S as (S1 & S2 & S3 & v & bs & clean & Ev & Ti & Lb & Hv). rewrite Ev in R. cbn [with_some] in R.
    destruct (Wm r I) as (Wi & En & So & Wis & Wts & Sz). assert (Vn := identifier_valid _ Wi).
    assert (Ll := mv_inv_length _ _ _ _ _ _ _ _ _ _ _ _ Hv). unfold buckets in Ll. rewrite map_length in Ll.
    assert (HB : len (concat bs) < 2 ^ mr_bits r) by lia.
    assert (R1 : exists o1, mv_close b e lim (mr_size r) (mr_bits r) v w = (o1, w') /\
       ((exists sl, o1 = Ret (Ok sl) /\ ok = true) \/ ((forall sl, o1 <> Ret (Ok sl)) /\ ok = false)) /\
       (s' = put_mul k None s \/ s' = s)).
    { apply bind_map2 in R as [(x & R & E')|(o1 & R & N1 & N2)].
      - exists (Ret x). split; [exact R|]. destruct Hw as [[-> Hl]|(N & _)]; [|destruct (N _ E')].
        injection E' as -> ->. split; [|auto]. destruct x as [sl|x]; [left; eauto|right; split; [discriminate|auto]].
      - exists o1. split; [exact R|]. destruct Hw as [[-> _]|(_ & -> & -> & ->)]; [exfalso; eapply N2; reflexivity|].
        split; [right; split; [auto|reflexivity]|auto]. }
    clear R. destruct R1 as (o1 & R & Ho & Hs').
    destruct (mv_close_cases b e lim (mr_size r) (mr_bits r) (mr_types r) st (mr_name r) (mr_schema r) Wis Wts Vn
                v w _ bs clean _ w' Hv M (mv_schema_ok_like _ st _ eq_refl So) HB ltac:(lia) ltac:(rewrite <- Ll; lia) R)
      as (T & _ & M1 & C).
    assert (Fb : Forall2 (bucket_of (mr_types r)) bs (buckets (mr_types r) l)).
    { destruct Hv as (? & ? & ? & ? & ? & ? & _ & _ & _ & _ & _ & Hb & _). exact Hb. }
    assert (DoD : data_ok (concat bs)) by (split; [eapply buckets_bytes; eauto|lia]).
    edestruct (clocal_step live a id base A s (co_mul k (if ok then MDone l else MDead l) A) s' (SMul k)) as [X Y]; [exact Wf|exact Hs| | | | | | |].
    7:{ split; [exact X|]. split; [exact Y|exact M1]. }
    + destruct Hs' as [->| ->]; reflexivity.
    + destruct Hs' as [->| ->]; reflexivity.
    + reflexivity.
    + destruct Hs' as [->| ->]; csame_slots.
    + eapply touches_mono; [|apply T]. intros c0 C0. cbn [slot_names]. rewrite Hk. cbn [opt_list].
      destruct C0 as [C0|C0]; [exists (mr_name r)|exists (mr_index r); rewrite En]; split; simpl; auto.
    + cbn [cslot]. rewrite Hk. cbn [at_slot co_mul co_muls]. rewrite !nupd_same.
      assert (Tl : (exists n c, (n = mr_name r \/ n = index_name (mr_name r)) /\ bytes_at (cell_at st n) w' = Some c /\ isize_max < len c) ->
        too_long st r w') by (unfold too_long; rewrite En; auto).
      assert (Lf : mv_left (mr_size r) (mr_bits r) st (mr_name r) (mr_schema r) bs w' -> mfslot live st r (MDead l) (bs_muls s' k) w').
      { intros (Di & Ha & Ui & Ud). right.
        destruct (index_array b e (mr_size r) (mr_bits r) Wis _ Di (bounds_range _ _ HB) Ha) as (Re & Bi & Li).
        exists bs, Di. split; [exact Fb|]. split; [exact Re|]. split.
        - split; [exact Bi|]. rewrite Li, app_length, bounds_length. cbn [length]. rewrite <- Ll, Nat2Z.inj_add. change (Z.of_nat 1) with 1. lia.
        - split; [exact DoD|]. rewrite En. auto. }
      destruct Ho as [([iv d] & -> & ->)|(N & ->)].
      * cbn [mfslot]. destruct C as [(_ & _ & [E|E] & _)|[(_ & E & _)|[(_ & C)|(r' & E & C & _)]]]; try discriminate E; [left; auto|].
        injection E as <-. destruct (C iv d eq_refl) as (C1 & C2 & C3 & C4 & C5 & C6 & C7 & C8 & C9 & C10). right.
        exists bs, (sl_bytes iv). split; [exact Fb|]. split; [exact C5|].
        split; [apply sl_bytes_data; [exact C1|]; rewrite C3, <- Ll; lia|]. split; [exact DoD|].
        unfold stored_bytes. rewrite En. destruct C9 as (P1 & P2 & _), C10 as (Q1 & Q2 & _). auto.
      * destruct C as [(_ & _ & _ & C)|[(_ & E & C)|[(_ & C)|(r' & -> & _ & C & _)]]]; [apply Lf; exact C|apply Lf; exact C|left; auto|].
        destruct r' as [[iv d]|x]; [destruct (N _ eq_refl)|]. apply Lf. eapply C. reflexivity.
  - (* raw *)
    destruct (went_set _ _ _ _ _ _ _ _ R Hw) as (o1 & R1 & Ho & ->). specialize (S (SRaw k)). cbn [cslot] in S. rewrite Hk in S. cbn [at_slot] in S.
    unfold set_raw in R1.
    eapply (cwrite_slot live b e a id base A s _ (SRaw k)); eauto.
    + cbn [slot_names]. rewrite Hk. reflexivity.
    + csame_slots.
    + intros K. cbn [cslot]. rewrite Hk. cbn [at_slot co_raw co_raws]. rewrite nupd_same. exact K.
  - (* new sub-archive *)
    destruct (sub_valid _ _ _ Wf I) as [V Wx]. specialize (U k s0 Hk). unfold csub in U.
    assert (Vn : valid_name (signature_name (ad_name (snd (fst s0))))) by (apply signature_valid; apply wf_eq in Wx; tauto).
    assert (H : half (snd (fst s0)) (path_join base (fst (fst s0))) w).
    { destruct Hp as [E|E]; rewrite E in U; [apply half_void; auto|exact U]. }
    assert (R1 : exists o1, sub_builder b e st s0 w = (o1, w') /\
       ((exists st', o1 = Ret (Ok st') /\ ok = true /\ s' = put_sub k (Some (new_bstate st')) s /\ live = true) \/
        ((forall v, o1 <> Ret (Ok v)) /\ ok = false /\ s' = s))).
    { apply bind_map2 in R as [(x & R & E')|(o1 & R & N1 & N2)].
      - exists (Ret x). split; [exact R|]. destruct Hw as [[-> Hl]|(N & _)]; [|destruct (N _ E')].
        destruct x as [v|x]; injection E' as -> ->; [left; eauto|right; split; [discriminate|auto]].
      - exists o1. split; [exact R|]. right. split; [auto|]. destruct Hw as [[-> _]|(_ & -> & -> & _)]; [exfalso; eapply N2; reflexivity|auto]. }
    clear R. destruct R1 as (o1 & R & Ho). unfold sub_builder in R.
    apply bind_any in R as [(st2 & w2 & R & R')|(o2 & R & N & _)]; [|exfalso; eapply N; inversion R; reflexivity].
    unfold st, subdir, file_new in R. injection R as <- <-.
    match type of R' with builder_new _ _ _ ?st ?wn = _ =>
      assert (Fn : frame (region st) w wn) by (apply (file_new_frame _ (path_join base (fst (fst s0))) w));
      assert (Mn : maps_ok wn)
    end.
    { intros i p L. simpl. unfold nupd. destruct (Nat.eqb i (w_next w)); [discriminate|]. apply M. }
    match type of R' with builder_new _ _ _ (FileStorage ?i ?bb) ?wn = _ =>
      destruct (cbuilder_new b e (snd (fst s0)) i bb wn o1 w' Wx Mn) as (Y & Z & X); [simpl; lia| | |exact R'|] end.
    { intros p. simpl. rewrite nupd_same. reflexivity. }
    { eapply half_same; [exact Wx| |exact H]. reflexivity. }
    destruct X as [(-> & X)|(N & X)].
    + destruct Ho as [(st' & E & -> & -> & ->)|(N & _)]; [injection E as <-|destruct (N _ eq_refl)].
      edestruct (csub_step true a id base A s w w' k s0) as [P Q]; [exact Wf|exact Hs|exact Hk|exact (frame_trans _ _ _ _ Fn Y)| | | | | |].
      6:{ split; [exact P|]. split; [exact Q|exact Z]. }
      all: try reflexivity.
      * intros k2 D. cbn [put_sub bs_subs]. apply nupd_other. exact D.
      * unfold csub. cbn [co_sub co_subs put_sub bs_subs]. rewrite !nupd_same. eexists _, _. split; [reflexivity|exact X].
    + destruct Ho as [(st' & -> & _)|(_ & -> & ->)]; [destruct (N _ eq_refl)|].
      edestruct (csub_step live a id base A s w w' k s0) as [P Q]; [exact Wf|exact Hs|exact Hk|exact (frame_trans _ _ _ _ Fn Y)| | | | | |].
      6:{ split; [exact P|]. split; [exact Q|exact Z]. }
      all: try reflexivity.
      unfold csub. cbn [co_sub co_subs]. rewrite !nupd_same. exact X.
  - (* in a sub-archive *)
    specialize (U k s0 Hk). unfold csub in U. rewrite Hp in U. destruct U as (id' & s1 & Es & H1).
    rewrite Es in R. cbn [with_some] in R. destruct (sub_valid _ _ _ Wf I) as [V Wx].
    assert (R1 : exists o1 s2, bstep b e lim (snd (fst s0)) o s1 w = (o1, w') /\ went o1 ok s1 s2 live /\
       (s' = put_sub k (Some s2) s \/ s' = s /\ s2 = s1)).
    { apply bind_map2 in R as [([f1 s2] & R & E')|(o1 & R & N1 & N2)].
      - exists (Ret (f1, s2)), s2. split; [exact R|]. destruct Hw as [[-> Hl]|(N & _)]; [|destruct (N _ E')].
        injection E' as -> ->. split; [left; auto|auto].
      - exists o1, s1. split; [exact R|]. destruct Hw as [[-> _]|(_ & -> & -> & ->)]; [exfalso; eapply N2; reflexivity|].
        split; [right; auto|auto]. }
    clear R. destruct R1 as (o1 & s2 & R & Hw1 & Hs').
    destruct (IH _ _ _ _ _ _ _ _ _ _ _ _ Wx M H1 Hok Td R Hw1) as (X & Y & Z).
    edestruct (csub_step live a id base A s w w' k s0) as [P Q]; [exact Wf|exact Hs|exact Hk|exact Y| | | | | |].
    6:{ split; [exact P|]. split; [exact Q|exact Z]. }
    + destruct Hs' as [->|[-> _]]; reflexivity.
    + destruct Hs' as [->|[-> _]]; reflexivity.
    + destruct Hs' as [->|[-> _]]; reflexivity.
    + intros k2 D. destruct Hs' as [->|[-> _]]; [|reflexivity]. cbn [put_sub bs_subs]. apply nupd_other. exact D.
    + unfold csub. cbn [co_sub co_subs]. rewrite !nupd_same. exists id', s2. split; [|exact X].
      destruct Hs' as [->|[-> ->]]; [cbn [put_sub bs_subs]; apply nupd_same|exact Es].
Qed.

(** * What is seen *)
Definition cslot_shows (a : adesc) (A : course) (x : archive) (sl : slot) : Prop :=
  match sl with
  | SSig => True
  | SStruct k => at_slot (nth_error (ad_structs a) k) (fun r => fate_shows (co_structs A k) (nth k (ar_structs x) None))
  | SVec k => at_slot (nth_error (ad_vectors a) k) (fun r => vfate_shows r (co_vecs A k) (nth k (ar_vectors x) None))
  | SMul k => at_slot (nth_error (ad_multis a) k) (fun r => mfate_shows r (co_muls A k) (nth k (ar_multis x) (None, None)))
  | SRaw k => at_slot (nth_error (ad_raws a) k) (fun r => fate_shows (co_raws A k) (nth k (ar_raws x) None))
  end.
Lemma cslots_show a A x : (forall sl, cslot_shows a A x sl) -> (forall k s, nth_error (ad_subs a) k = Some s -> csub_shows A x k s) ->
  course_shows a A x.
Proof.
  intros H H5. apply course_eq. split; [|split; [|split; [|split; [|exact H5]]]]; intros k r Hk.
  - specialize (H (SStruct k)). cbn [cslot_shows] in H. rewrite at_slot_iff in H. eauto.
  - specialize (H (SVec k)). cbn [cslot_shows] in H. rewrite at_slot_iff in H. eauto.
  - specialize (H (SMul k)). cbn [cslot_shows] in H. rewrite at_slot_iff in H. eauto.
  - specialize (H (SRaw k)). cbn [cslot_shows] in H. rewrite at_slot_iff in H. eauto.
Qed.
Definition vsure (f : vfate) : Prop := (exists d, f = VByte (Known (Some d))) \/ exists l, f = VDone l.
Definition cslot_keeps (a : adesc) (A : course) (p : place) (sl : slot) : Prop :=
  match sl with
  | SSig => sound p (signature_name (ad_name a)) (ad_schema a)
  | SStruct k => at_slot (nth_error (ad_structs a) k) (fun r =>
      (exists d, co_structs A k = Known (Some d)) -> sound p (tr_name r) (tr_schema r))
  | SVec k => at_slot (nth_error (ad_vectors a) k) (fun r => vsure (co_vecs A k) -> sound p (tr_name r) (tr_schema r))
  | SMul k => at_slot (nth_error (ad_multis a) k) (fun r => (exists l, co_muls A k = MDone l) ->
      sound p (mr_index r) (index_schema (mr_schema r)) /\ sound p (mr_name r) (mr_schema r))
  | SRaw k => at_slot (nth_error (ad_raws a) k) (fun r =>
      (exists d, co_raws A k = Known (Some d)) -> sound p (rr_name r) (rr_schema r))
  end.
Lemma ckeeps_checks a A p : complete a A -> (forall sl, cslot_keeps a A p sl) ->
  (forall k s B, nth_error (ad_subs a) k = Some s -> co_subs A k = SLive B -> complete (snd (fst s)) B ->
     checks (snd (fst s)) (sub_place p (fst (fst s)))) -> checks a p.
Proof.
  intros Su K Ks. apply checks_eq. apply complete_eq in Su as (S1 & S2 & S3 & S4 & S5).
  split; [exact (K SSig)|]. split; [|split; [|split]].
  - intros r I O. apply in_app_or in I as [I|I]; apply In_nth_error in I as [k Hk].
    + specialize (K (SStruct k)). cbn [cslot_keeps] in K. rewrite at_slot_iff in K. eauto.
    + specialize (K (SVec k)). cbn [cslot_keeps] in K. rewrite at_slot_iff in K. apply K; auto. apply (S2 k r Hk O).
  - intros r I O. apply In_nth_error in I as [k Hk]. specialize (K (SMul k)). cbn [cslot_keeps] in K. rewrite at_slot_iff in K. eauto.
  - intros r I O. apply In_nth_error in I as [k Hk]. specialize (K (SRaw k)). cbn [cslot_keeps] in K. rewrite at_slot_iff in K. eauto.
  - apply Forall_forall. intros s I O. apply In_nth_error in I as [k Hk]. specialize (S5 k s Hk O).
    destruct (co_subs A k) as [| |B] eqn:E; [destruct S5|destruct S5|]. eauto.
Qed.
Lemma course_attempted a A p x : opened true a p x -> course_shows a A x -> attempted a A.
Proof.
  intros H L. apply opened_eq in H as (_ & Xs & Xv & Xm & Xr & Xu). apply course_eq in L as (L1 & L2 & L3 & L4 & L5).
  apply attempted_eq. split; [|split; [|split; [|split]]]; intros k r Hk O.
  - intros E. specialize (L1 k r Hk). rewrite E in L1. apply (nth_error_Forall2 _ _ _ _ _ None Xs) in Hk as Hp.
    unfold typed_part, part, fate_shows in *. destruct (nth k (ar_structs x) None); [discriminate|]. destruct Hp; congruence.
  - intros E. specialize (L2 k r Hk). rewrite E in L2. apply (nth_error_Forall2 _ _ _ _ _ None Xv) in Hk as Hp.
    unfold typed_part, part, vfate_shows, fate_shows in *. destruct (nth k (ar_vectors x) None); [discriminate|]. destruct Hp; congruence.
  - intros E. specialize (L3 k r Hk). rewrite E in L3. apply (nth_error_Forall2 _ _ _ _ _ (None, None) Xm) in Hk as Hp.
    cbn [mfate_shows] in L3. rewrite L3 in Hp. destruct Hp as [[? _] _]. congruence.
  - intros E. specialize (L4 k r Hk). rewrite E in L4. apply (nth_error_Forall2 _ _ _ _ _ None Xr) in Hk as Hp.
    unfold raw_part, part, fate_shows in *. destruct (nth k (ar_raws x) None); [discriminate|]. destruct Hp; congruence.
  - specialize (L5 k r Hk). apply (nth_error_Forall2 _ _ _ _ _ None Xu) in Hk as Hp. unfold csub_shows, sub_part in *.
    destruct (co_subs A k), (nth k (ar_subs x) None); try tauto; try discriminate; destruct Hp; congruence.
Qed.

Section Settle.
Context (id : nat) (base : string).
Let st := FileStorage id base.
Lemma fslot_settled live n schema f w opt y : disk_ok w -> schema_ok st schema -> fslot live st n schema f w ->
  let p := PDisk base w in
  (part true p opt n schema y -> fate_shows f y) /\ ((exists d, f = Known (Some d)) -> sound p n schema) /\ tame p n.
Proof.
  intros Dk So S p. destruct f as [o|l].
  - assert (T : tells p n schema o).
    { destruct S as [_ S]. destruct o as [d|].
      - destruct S as (A & B & D). apply (exact_tells id); auto.
      - destruct S as [A B]. apply (absent_tells id); auto. }
    split; [intros H; exact (part_tells _ _ _ _ _ _ T H)|]. split; [|eapply tells_tame; exact T].
    intros [d E]. apply (sound_tells _ _ _ _ T). congruence.
  - destruct S as [_ S]. split; [|split; [intros [d E]; discriminate|eapply (only_tame id); exact S]].
    intros H sl ->. destruct H as [H _]. eapply (only_holds id); eauto.
Qed.
Lemma unsealed_settled n schema sch w opt y : disk_ok w -> unsealed st n schema w -> part true (PDisk base w) opt n sch y -> nothing_in y.
Proof. intros Dk U H sl ->. destruct H as [H _]. eapply (unsealed_left id base); eauto. Qed.
Lemma not_long r w : disk_ok w -> ~ too_long st r w.
Proof. intros Dk (n & c & _ & B & L). destruct (disk_small id base w n c Dk B) as [_ X]. lia. Qed.

Lemma cslot_settled live a A s w sl x : wf_archive true a -> disk_ok w -> cslot live a st A s sl w ->
  let p := PDisk base w in
  (opened true a p x -> cslot_shows a A x sl) /\ cslot_keeps a A p sl /\ slot_tame a p sl.
Proof.
  intros Wf Dk S' p. assert (S : cslot false a st A s sl w) by (destruct live; [apply cslot_live|]; assumption). clear S'.
  assert (Ws := Wf). apply wf_eq in Ws. destruct Ws as (_ & Wsig & _ & Ws & Wv & Wm & Wr & _).
  rewrite Forall_forall in Ws, Wv, Wm, Wr.
  destruct sl as [|k|k|k|k]; cbn [cslot cslot_shows cslot_keeps] in *.
  - destruct (fslot_settled false _ _ _ w true None Dk Wsig S) as (_ & K & T). split; [auto|]. split; [apply K; eauto|].
    intros n [<-|[]]. exact T.
  - unfold slot_tame. cbn [slot_names]. destruct (nth_error (ad_structs a) k) as [r|] eqn:Hk; cbn [at_slot opt_list] in *; [|split; [auto|]; split; [auto|intros n []]].
    destruct (Ws r (nth_error_In _ _ Hk)) as [_ So].
    destruct (fslot_settled false _ _ _ w (tr_opt r) (nth k (ar_structs x) None) Dk So S) as (H & K & T). split; [|split; [exact K|intros n [<-|[]]; exact T]].
    intros Hx. apply H. apply opened_eq in Hx as (_ & Xs & _). apply (nth_error_Forall2 _ _ _ _ _ None Xs) in Hk as Hp. exact Hp.
  - unfold slot_tame. cbn [slot_names]. destruct (nth_error (ad_vectors a) k) as [r|] eqn:Hk; cbn [at_slot opt_list] in *; [|split; [auto|]; split; [auto|intros n []]].
    destruct (Wv r (nth_error_In _ _ Hk)) as [[_ So] _].
    assert (Hpart : opened true a p x -> typed_part true p r (nth k (ar_vectors x) None)).
    { intros Hx. apply opened_eq in Hx as (_ & _ & Xv & _). apply (nth_error_Forall2 _ _ _ _ _ None Xv) in Hk as Hp. exact Hp. }
    destruct (co_vecs A k) as [f|l|l|l]; cbn [vfslot vfate_shows] in *.
    + destruct (fslot_settled false _ _ _ w (tr_opt r) (nth k (ar_vectors x) None) Dk So S) as (H & K & T).
      split; [intros Hx; apply H; exact (Hpart Hx)|]. split; [|intros n [<-|[]]; exact T]. intros [[d E]|[l E]]; [|discriminate]. injection E as ->. apply K. eauto.
    + split; [intros Hx; eapply unsealed_settled; [exact Dk|exact S|apply Hpart; exact Hx]|].
      split; [intros [[d E]|[l' E]]; discriminate|intros n [<-|[]]; eapply (unsealed_tame id base); exact S].
    + destruct S as (D & c & Do & Ar & Re & B1 & B2 & L).
      assert (Lc : len c <= isize_max) by apply (disk_small id base w _ c Dk B1). rewrite (L Lc) in B1.
      assert (T : tells p (tr_name r) (tr_schema r) (Some D)) by (apply (exact_tells id); auto).
      split; [|split; [intros _; apply (sound_tells _ _ _ _ T); discriminate|intros n [<-|[]]; eapply tells_tame; exact T]].
      intros Hx. apply Hpart in Hx. apply (part_tells _ _ _ _ _ _ T) in Hx.
      destruct (nth k (ar_vectors x) None); [|discriminate]. injection Hx as E. cbn [shows_vec]. rewrite E. auto.
    + destruct S as (D & Do & Ar & Re & Uf).
      split; [|split; [intros [[d E]|[l' E]]; discriminate|intros n [<-|[]]; eapply (unfinished_tame id base); eauto]].
      intros Hx. apply Hpart in Hx. destruct (nth k (ar_vectors x) None) as [y|]; [|left; discriminate]. destruct Hx as [Hx _].
      destruct (unfinished_left id base _ _ _ _ _ _ Dk Do Uf Hx) as [E|E].
      * right. cbn [shows_vec]. rewrite E. auto.
      * left. intros sl E'. injection E' as <-. exact E.
  - unfold slot_tame. cbn [slot_names]. destruct (nth_error (ad_multis a) k) as [r|] eqn:Hk; cbn [at_slot opt_list] in *; [|split; [auto|]; split; [auto|intros n []]].
    destruct (Wm r (nth_error_In _ _ Hk)) as (_ & En & So & Wi & Wt & _).
    assert (Si := index_schema_ok _ _ So).
    assert (Hpart : opened true a p x -> multi_part true p r (nth k (ar_multis x) (None, None))).
    { intros Hx. apply opened_eq in Hx as (_ & _ & _ & Xm & _). apply (nth_error_Forall2 _ _ _ _ _ (None, None) Xm) in Hk as Hp. exact Hp. }
    destruct (nth k (ar_multis x) (None, None)) as [yi yd].
    destruct (co_muls A k) as [| |l|l|l]; cbn [mfslot mfate_shows fst snd] in *.
    + destruct S as [S1 S2].
      destruct (fslot_settled false _ _ _ w (mr_opt r) yi Dk Si S1) as (H1 & _ & T1).
      destruct (fslot_settled false _ _ _ w (mr_opt r) yd Dk (proj1 So) S2) as (H2 & _ & T2).
      split; [|split; [intros [l E]; discriminate|intros n [<-|[<-|[]]]; assumption]].
      intros Hx. apply Hpart in Hx as [Hi Hd]. specialize (H1 Hi). specialize (H2 Hd). cbn in H1, H2.
      destruct yi, yd; try discriminate; reflexivity.
    + destruct S as [S1 S2].
      destruct (fslot_settled false _ _ _ w (mr_opt r) yi Dk Si S1) as (H1 & _ & T1).
      destruct (fslot_settled false _ _ _ w (mr_opt r) yd Dk (proj1 So) S2) as (H2 & _ & T2).
      split; [|split; [intros [l E]; discriminate|intros n [<-|[<-|[]]]; assumption]].
      intros Hx. apply Hpart in Hx as [Hi Hd]. specialize (H1 Hi). specialize (H2 Hd).
      split; [intros sl E; destruct (H1 sl E) as [E'|[]]; auto|intros sl E; destruct (H2 sl E) as [E'|[]]; auto].
    + destruct S as [S1 S2].
      split; [|split; [intros [l' E]; discriminate|intros n [<-|[<-|[]]]; eapply (unsealed_tame id base); eassumption]].
      intros Hx. apply Hpart in Hx as [Hi Hd].
      split; [eapply unsealed_settled; [exact Dk|exact S1|exact Hi]|eapply unsealed_settled; [exact Dk|exact S2|exact Hd]].
    + destruct S as [S|(bs & Di & Fb & Re & DoI & DoD & P1 & P2 & P3 & P4)]; [destruct (not_long r w Dk S)|].
      assert (T1 : tells p (mr_index r) (index_schema (mr_schema r)) (Some Di)) by (apply (exact_tells id); auto).
      assert (T2 : tells p (mr_name r) (mr_schema r) (Some (concat bs))) by (apply (exact_tells id); auto; apply So).
      split; [|split; [intros _; split; [apply (sound_tells _ _ _ _ T1)|apply (sound_tells _ _ _ _ T2)]; discriminate|
        intros n [<-|[<-|[]]]; eapply tells_tame; eassumption]].
      intros Hx. apply Hpart in Hx as [Hi Hd]. cbn [fst snd] in *.
      assert (E1 := part_tells _ _ _ _ _ _ T1 Hi). assert (E2 := part_tells _ _ _ _ _ _ T2 Hd).
      destruct yi as [i|], yd as [d|]; try discriminate. injection E1 as E1. injection E2 as E2. cbn [shows_mul].
      destruct Hi as (_ & Oi & _), Hd as (_ & Od & _).
      eapply (parts_show (mr_size r) (mr_bits r) (mr_types r) bs); eauto. rewrite E1. exact Re.
    + destruct S as [S|(bs & Di & Fb & Re & DoI & DoD & U1 & U2)]; [destruct (not_long r w Dk S)|].
      split; [|split; [intros [l' E]; discriminate|intros n [<-|[<-|[]]]; [exact (unfinished_tame id base _ _ _ _ DoI U1)|exact (unfinished_tame id base _ _ _ _ DoD U2)]]].
      intros Hx. apply Hpart in Hx as [Hi Hd]. cbn [fst snd] in *.
      destruct yi as [i|]; [|left; discriminate]. destruct yd as [d|]; [|right; left; discriminate].
      destruct Hi as (Hi & Oi & _), Hd as (Hd & Od & _).
      destruct (unfinished_left id base _ _ _ _ _ _ Dk DoI U1 Hi) as [E1|E1]; [|left; intros sl E; injection E as <-; exact E1].
      destruct (unfinished_left id base _ _ _ _ _ _ Dk DoD U2 Hd) as [E2|E2]; [|right; left; intros sl E; injection E as <-; exact E2].
      right. right. cbn [shows_mul].
      eapply (parts_show (mr_size r) (mr_bits r) (mr_types r) bs); eauto. rewrite E1. exact Re.
  - unfold slot_tame. cbn [slot_names]. destruct (nth_error (ad_raws a) k) as [r|] eqn:Hk; cbn [at_slot opt_list] in *; [|split; [auto|]; split; [auto|intros n []]].
    destruct (Wr r (nth_error_In _ _ Hk)) as [_ So].
    destruct (fslot_settled false _ _ _ w (rr_opt r) (nth k (ar_raws x) None) Dk So S) as (H & K & T). split; [|split; [exact K|intros n [<-|[]]; exact T]].
    intros Hx. apply H. apply opened_eq in Hx as (_ & _ & _ & _ & Xr & _). apply (nth_error_Forall2 _ _ _ _ _ None Xr) in Hk as Hp. exact Hp.
Qed.
End Settle.

Definition csettled (a : adesc) (A : course) (p : place) : Prop :=
  (forall x, opened true a p x -> course_shows a A x) /\ (complete a A -> checks a p) /\ everywhere tame a p.
Lemma void_settled a base w : wf_archive true a -> (forall k, under base k -> w_files w k = None) ->
  let p := PDisk base w in ~ checks a p /\ everywhere tame a p.
Proof.
  intros Wf H p. assert (V : void p) by (right; exists base, w; auto). split; [eapply void_checks; eauto|].
  eapply void_everywhere; eauto. intros q n T. eapply tells_tame; eauto.
Qed.
Lemma half_settled a base w : wf_archive true a -> disk_ok w -> half a base w ->
  let p := PDisk base w in (forall x, opened true a p x -> course_shows a no_course x) /\ everywhere tame a p.
Proof.
  intros Wf Dk H p.
  assert (Sl : forall sl x, sl <> SSig -> (opened true a p x -> cslot_shows a no_course x sl) /\ slot_tame a p sl).
  { intros sl x D. destruct (cslot_settled 0 base false a no_course (new_bstate (FileStorage 0 base)) w sl x Wf Dk) as (X & _ & Y); auto.
    apply half_slots; auto. discriminate. }
  assert (Su := fun k x Hk => void_settled (snd (fst x)) _ w (proj2 (sub_valid _ _ _ Wf (nth_error_In _ _ Hk))) (half_subs a base w k x Wf H Hk)).
  split.
  - intros x Hx. apply cslots_show.
    + intros sl. destruct (slot_eq_dec sl SSig) as [->|D]; [exact I|]. apply Sl; auto.
    + intros k s Hk. unfold csub_shows. cbn [no_course co_subs]. apply opened_eq in Hx as (_ & _ & _ & _ & _ & Xu).
      apply (nth_error_Forall2 _ _ _ _ _ None Xu) in Hk as Hp. unfold sub_part in Hp. destruct (nth k (ar_subs x) None); [|reflexivity].
      exfalso. apply (proj1 (Su k s Hk)). eapply opened_checks; eauto.
  - apply everywhere_eq. split.
    + apply slots_tame. intros sl. destruct (slot_eq_dec sl SSig) as [->|D]; [|apply (Sl sl (mkOpened [] [] [] [] []) D)].
      intros n [<-|[]]. eapply (only_tame 0). apply (proj2 H).
    + apply Forall_forall. intros s I. apply In_nth_ex in I as [k Hk]. apply (Su k s Hk).
Qed.
Lemma csim_settled live a : forall id base A s w, wf_archive true a -> disk_ok w -> csim live a id base A s w ->
  csettled a A (PDisk base w).
Proof.
  induction a as [name schema ss vs ms rs subs IH] using adesc_deep_ind. intros id base A s w Wf Dk Hs.
  set (a := mkArchive name schema ss vs ms rs subs) in *. apply csim_eq in Hs as (_ & _ & S & U).
  set (p := PDisk base w).
  assert (Sl := fun sl x => cslot_settled id base live a A s w sl x Wf Dk (S sl)).
  rewrite Forall_forall in IH.
  assert (Su : forall k x, nth_error (ad_subs a) k = Some x -> let p' := sub_place p (fst (fst x)) in
     everywhere tame (snd (fst x)) p' /\
     match co_subs A k with
     | SNever => ~ checks (snd (fst x)) p'
     | SFailed => forall y, opened true (snd (fst x)) p' y -> course_shows (snd (fst x)) no_course y
     | SLive B => csettled (snd (fst x)) B p'
     end).
  { intros k x Hk p'. specialize (U k x Hk). unfold csub in U. assert (I := nth_error_In _ _ Hk). destruct (sub_valid _ _ _ Wf I) as [V Wx].
    destruct (co_subs A k) as [| |B].
    - destruct (void_settled (snd (fst x)) _ w Wx U). auto.
    - destruct (half_settled (snd (fst x)) _ w Wx Dk U). auto.
    - destruct U as (id' & s' & _ & H). assert (X : csettled (snd (fst x)) B p') by (eapply (IH x I); eauto). split; [apply X|exact X]. }
  split; [|split].
  - intros x Hx. apply cslots_show; [intros sl; apply Sl; exact Hx|]. intros k s0 Hk. destruct (Su k s0 Hk) as [_ Sk].
    apply opened_eq in Hx as (_ & _ & _ & _ & _ & Xu). apply (nth_error_Forall2 _ _ _ _ _ None Xu) in Hk as Hp.
    unfold sub_part, csub_shows in *. destruct (co_subs A k) as [| |B], (nth k (ar_subs x) None) as [x'|]; auto.
    + exfalso. apply Sk. eapply opened_checks; eauto.
    + split; [eapply course_attempted; eauto|auto].
    + destruct Sk as (Sk & _). split; [eapply course_attempted; eauto|auto].
    + intros C. destruct Sk as (_ & Sk & _). specialize (Sk C). destruct Hp as [_ Hp].
      assert (Rd : everywhere readable (snd (fst s0)) (sub_place p (fst (fst s0)))).
      { apply everywhere_disk. intros. apply readable_disk. exact Dk. }
      destruct (proj1 (opened_dec _ _ Rd) Sk) as [x' Hx']. exact (Hp eq_refl x' Hx').
  - intros C. apply (ckeeps_checks a A p C); [intros sl; apply (Sl sl (mkOpened [] [] [] [] []))|].
    intros k s0 B Hk E CB. destruct (Su k s0 Hk) as [_ Sk]. rewrite E in Sk. apply Sk. exact CB.
  - apply everywhere_eq. split; [apply slots_tame; intros sl; apply (Sl sl (mkOpened [] [] [] [] []))|].
    apply Forall_forall. intros s0 I. apply In_nth_ex in I as [k Hk]. apply (Su k s0 Hk).
Qed.

(** * Whole runs *)
End Tidy.
Lemma crun b e lim a ops : forall id base A A' s w flags flags' s' w', let st := FileStorage id base in wf_archive true a -> maps_ok w ->
  csim false true a id base A s w -> brun b e lim a ops s w = (Ret (flags', s'), w') -> attempts a A ops flags A' -> flags = flags' ->
  csim false true a id base A' s' w' /\ frame (region st) w w' /\ maps_ok w'.
Proof.
  induction ops as [|o ops IH]; intros id base A A' s w flags flags' s' w' st Wf M Hs R Hh ->; inversion Hh; subst; cbn [brun] in R.
  - apply ret_pair in R as (_ & -> & ->). split; [exact Hs|]. split; [apply frame_refl|exact M].
  - apply bind_ret in R as ([f1 s1] & w1 & R1 & R). apply bind_ret in R as ([f2 s2] & w2 & R2 & R).
    apply ret_pair in R as (E & -> & ->). cbn [fst snd] in *. injection E as -> ->.
    match goal with H : tries _ _ _ _ _ |- _ => rename H into Hm end.
    match goal with H : attempts _ _ ops _ _ |- _ => rename H into Hh' end.
    destruct (ctry_step false b e lim o a id base A s w f1 _ _ s1 true w1 Wf M Hs Hm ltac:(discriminate) R1 (or_introl (conj eq_refl eq_refl))) as (X & Y & Z).
    destruct (IH id base _ _ s1 w1 f2 f2 s2 w2 Wf Z X R2 Hh' eq_refl) as (P & Q & T).
    split; [exact P|]. split; [eapply frame_trans; eauto|exact T].
Qed.

Lemma unused_half a id base w : wf_archive true a -> unused_storage (FileStorage id base) w ->
  (id < w_next w)%nat /\ (forall p, w_maps w id p = None) /\ half a base w.
Proof.
  intros Wf [Hid [Hm Hf]]. split; [exact Hid|]. split; [exact Hm|]. apply half_void; [exact Hf|].
  apply signature_valid. apply wf_eq in Wf. tauto.
Qed.
Lemma retry_open b e b' e' lim a id base w st' w1 ops flags A s' w2 A' w3 : let st := FileStorage id base in
  wf_archive true a -> maps_ok w -> unused_storage st w ->
  builder_new b e a st w = (Ret (Ok st'), w1) ->
  brun b e lim a ops (new_bstate st') w1 = (Ret (flags, s'), w2) ->
  attempts a no_course ops flags A ->
  (A' = A /\ w3 = w2 \/
   exists o oc, tries a A o false A' /\ bstep b e lim a o s' w2 = (oc, w3) /\ forall x, oc <> Ret x) ->
  disk_ok w3 ->
  exists r, fresh_open b' e' a base w3 = Ret r /\
    (forall x, r = Ok x -> attempted a A' /\ course_shows a A' x) /\
    (complete a A' -> exists x, r = Ok x).
Proof.
  intros st Wf M Un R Rr Hh X Dk. destruct (unused_half a id base w Wf Un) as (Hid & Hm & H).
  destruct (cbuilder_new false b e a id base w _ w1 Wf M Hid Hm H R) as (_ & M1 & [(E & S1)|(N & _)]); [|destruct (N _ eq_refl)].
  injection E as ->.
  destruct (crun b e lim a ops id base _ _ _ _ _ _ _ _ Wf M1 S1 Rr Hh eq_refl) as (S2 & _ & M2).
  assert (S3 : exists live s3, csim false live a id base A' s3 w3).
  { destruct X as [[-> ->]|(o & oc & Ht & Rs & No)]; [eauto|]. exists false, s'.
    eapply (ctry_step false b e lim o a id base A s' w2 false A' oc s' false w3); eauto; [discriminate|]. right. auto. }
  destruct S3 as (live & s3 & S3). destruct (csim_settled false live a id base A' s3 w3 Wf Dk S3) as (L & C & T).
  destruct (fresh_open_exact b' e' a base w3 Dk (or_intror T)) as (r & E & X' & Y).
  exists r. split; [exact E|]. split.
  - intros x Hx. specialize (Y x Hx). split; [eapply course_attempted; eauto|auto].
  - intros Co. apply X'. auto.
Qed.

(** A sub-archive whose signature is there is not created. *)
Lemma sub_stuck b e lim a k x s id base c n : bs_st s = FileStorage id base -> nth_error (ad_subs a) k = Some x ->
  forall w, w_faults w = [] ->
  w_files w (key_of (path_join (path_join base (fst (fst x))) (signature_name (ad_name (snd (fst x)))))) = Some c ->
  exists w', brun b e lim a (repeat (BSubNew k) n) s w = (Ret (repeat false n, s), w').
Proof.
  intros Hs Hk. induction n as [|n IH]; intros w Hf Hc; [exists w; reflexivity|].
  cbn [repeat brun]. set (w1 := set_next (S (w_next w)) (set_maps (nupd (w_next w) (fun _ => None) (w_maps w)) w)).
  assert (E : bstep b e lim a (BSubNew k) s w = (Ret (false, s), w1)).
  { assert (P : exists_ (FileStorage (w_next w) (path_join base (fst (fst x)))) (signature_name (ad_name (snd (fst x)))) w1 = (Ret true, w1)).
    { unfold exists_, path_exists, mbind, syscall, next_fault, on_disk, res_key, res_path, w1.
      cbn [w_faults set_next set_maps]. rewrite Hf. cbn [w_files set_next set_maps st_base]. rewrite Hc. reflexivity. }
    cbn [bstep]. rewrite Hk, Hs. cbn [with_some]. unfold sub_builder, builder_new, create_archive, subdir, file_new, mtry, mbind. fold w1.
    cbn [fst snd]. rewrite P. reflexivity. }
  destruct (IH w1 Hf Hc) as [w' E']. exists w'. unfold mbind. rewrite E. cbn [fst snd]. rewrite E'. reflexivity.
Qed.
