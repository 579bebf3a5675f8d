(** Facts about archive builders. *)
From Verif Require Import Base BaseFacts Codec CodecSpec CodecFacts Structs StructsSpec StructsFacts Views ViewsSpec ViewsFacts.
From Verif Require Import Storage PathFacts StorageSpec StorageFacts StorageMore StorageUse Writers WritersSpec HandleFacts EncodeFacts.
From Verif Require Import ElsewhereFacts ExtVecFacts ExtVecUse MultiViews MultiSpec MultiViewFacts MultiViewUse MultiVecFacts MultiVecUse.
From Verif Require Import Archives ArchiveSpec ArchiveFacts BuilderSpec.
Local Open Scope list_scope.
Local Open Scope Z_scope.
Local Arguments firstn : simpl never.
Local Arguments skipn : simpl never.

(** * Unfolding *)
Definition sub_wf (file : bool) (s : string * adesc * bool) : Prop :=
  identifier (fst (fst s)) /\ wf_archive file (snd (fst s)).
Lemma wf_eq file a : wf_archive file a <->
  identifier (ad_name a) /\ schema_ok (if file then FileStorage 0 "" else MemStorage 0 "") (ad_schema a) /\
  NoDup (part_names a) /\
  Forall (typed_ok file) (ad_structs a) /\
  Forall (fun r => typed_ok file r /\ wf_struct (tr_struct r)) (ad_vectors a) /\
  Forall (multi_ok file) (ad_multis a) /\ Forall (raw_ok file) (ad_raws a) /\
  NoDup (map (fun s => fst (fst s)) (ad_subs a)) /\ Forall (sub_wf file) (ad_subs a).
Proof.
  destruct a as [name schema ss vs ms rs subs].
  cbn [wf_archive ad_name ad_schema ad_structs ad_vectors ad_multis ad_raws ad_subs].
  assert (E : forall l, (fix go (l : list (string * adesc * bool)) : Prop :=
     match l with
     | [] => True
     | (n, a', _) :: l => (identifier n /\ wf_archive file a') /\ go l
     end) l <-> Forall (sub_wf file) l).
  { intros l; induction l as [|[[n a'] o] l IH]; [split; [intros _; constructor|auto]|].
    rewrite IH. unfold sub_wf at 2. split.
    - intros [H H']. constructor; auto.
    - intros H. inversion H; subst. auto. }
  rewrite E. tauto.
Qed.

Definition sub_sufficient (A : plan) (k : nat) (s : string * adesc * bool) : Prop :=
  snd s = false -> match pl_subs A k with Some A' => sufficient (snd (fst s)) A' | None => False end.
Lemma sufficient_eq a A : sufficient a A <->
  (forall k r, nth_error (ad_structs a) k = Some r -> tr_opt r = false -> pl_structs A k <> None) /\
  (forall k r, nth_error (ad_vectors a) k = Some r -> tr_opt r = false -> pl_vecs A k <> VUnset) /\
  (forall k r, nth_error (ad_multis a) k = Some r -> mr_opt r = false -> pl_muls A k <> MUnset) /\
  (forall k r, nth_error (ad_raws a) k = Some r -> rr_opt r = false -> pl_raws A k <> None) /\
  (forall k s, nth_error (ad_subs a) k = Some s -> sub_sufficient A k s).
Proof.
  destruct a as [name schema ss vs ms rs subs].
  cbn [sufficient ad_name ad_schema ad_structs ad_vectors ad_multis ad_raws ad_subs].
  assert (E : forall l i, (fix go (k : nat) (l : list (string * adesc * bool)) : Prop :=
     match l with
     | [] => True
     | (_, a', opt) :: l =>
         (opt = false -> match pl_subs A k with Some A' => sufficient a' A' | None => False end) /\ go (S k) l
     end) i l <-> forall k s, nth_error l k = Some s -> sub_sufficient A (i + k) s).
  { intros l; induction l as [|[[n a'] o] l IH]; intros i.
    - split; [intros _ [|k] s H; discriminate H|auto].
    - rewrite IH. split.
      + intros [H H'] [|k] s Hk; cbn [nth_error] in Hk.
        * injection Hk as <-. rewrite Nat.add_0_r. exact H.
        * rewrite <- Nat.add_succ_comm. auto.
      + intros H. split.
        * specialize (H O _ eq_refl). rewrite Nat.add_0_r in H. exact H.
        * intros k s Hk. rewrite Nat.add_succ_comm. apply H. exact Hk. }
  rewrite E. tauto.
Qed.

Definition sub_shows (A : plan) (x : archive) (k : nat) (s : string * adesc * bool) : Prop :=
  match nth k (ar_subs x) None with
  | Some x' => exists A', pl_subs A k = Some A' /\ sufficient (snd (fst s)) A' /\ shows_plan (snd (fst s)) A' x'
  | None => forall A', pl_subs A k = Some A' -> ~ sufficient (snd (fst s)) A'
  end.
Lemma shows_plan_eq a A x : shows_plan a A x <->
  (forall k r, nth_error (ad_structs a) k = Some r -> shows_bytes (pl_structs A k) (nth k (ar_structs x) None)) /\
  (forall k r, nth_error (ad_vectors a) k = Some r -> shows_vec r (pl_vecs A k) (nth k (ar_vectors x) None)) /\
  (forall k r, nth_error (ad_multis a) k = Some r -> shows_mul r (pl_muls A k) (nth k (ar_multis x) (None, None))) /\
  (forall k r, nth_error (ad_raws a) k = Some r -> shows_bytes (pl_raws A k) (nth k (ar_raws x) None)) /\
  (forall k s, nth_error (ad_subs a) k = Some s -> sub_shows A x k s).
Proof.
  destruct a as [name schema ss vs ms rs subs].
  cbn [shows_plan ad_name ad_schema ad_structs ad_vectors ad_multis ad_raws ad_subs].
  assert (E : forall l i, (fix go (k : nat) (l : list (string * adesc * bool)) : Prop :=
     match l with
     | [] => True
     | (_, a', _) :: l =>
         match nth k (ar_subs x) None with
         | Some x' => exists A', pl_subs A k = Some A' /\ sufficient a' A' /\ shows_plan a' A' x'
         | None => forall A', pl_subs A k = Some A' -> ~ sufficient a' A'
         end /\ go (S k) l
     end) i l <-> forall k s, nth_error l k = Some s -> sub_shows A x (i + k) s).
  { intros l; induction l as [|[[n a'] o] l IH]; intros i.
    - split; [intros _ [|k] s H; discriminate H|auto].
    - rewrite IH. split.
      + intros [H H'] [|k] s Hk; cbn [nth_error] in Hk.
        * injection Hk as <-. rewrite Nat.add_0_r. exact H.
        * rewrite <- Nat.add_succ_comm. auto.
      + intros H. split.
        * specialize (H O _ eq_refl). rewrite Nat.add_0_r in H. exact H.
        * intros k s Hk. rewrite Nat.add_succ_comm. apply H. exact Hk. }
  rewrite E. tauto.
Qed.

(** * Names *)
Fixpoint after_dot (s : string) : string :=
  match s with
  | EmptyString => EmptyString
  | String c r => if Ascii.eqb c "."%char then r else after_dot r
  end.
Lemma after_dot_app x r : StorageSpec.no_dot x = true -> after_dot (x ++ String "."%char r) = r.
Proof.
  induction x as [|c x IH]; simpl; auto. intros H. apply andb_prop in H as [H H'].
  revert H. destruct (Ascii.eqb c "."%char); [discriminate|auto].
Qed.

Lemma signature_valid n : identifier n -> valid_name (signature_name n).
Proof. intros H. apply valid_app; [apply identifier_valid; exact H|auto]. Qed.
Lemma signature_unrelated x n : identifier x -> identifier n -> unrelated (signature_name x) n.
Proof.
  intros (_ & _ & A) (_ & _ & B). unfold unrelated, signature_name, schema_name. split; [|split]; intros H.
  - rewrite <- H, StorageUse.no_dot_app, andb_false_r in B. discriminate.
  - apply (f_equal after_dot) in H. rewrite !after_dot_app in H by assumption. discriminate.
  - rewrite H, !StorageUse.no_dot_app, !andb_false_r in B. discriminate.
Qed.
Lemma unrelated_sym n m : unrelated n m -> unrelated m n.
Proof. intros (A & B & C). split; auto. Qed.
Lemma same_no_dot s : StorageSpec.no_dot s = MultiSpec.no_dot s.
Proof. induction s as [|c s IH]; simpl; [auto|rewrite IH; auto]. Qed.
Lemma identifier_index n : identifier n -> identifier (index_name n).
Proof.
  intros (A & B & C). split; [|split].
  - unfold index_name. destruct n; discriminate.
  - unfold index_name. rewrite PathFacts.no_slash_app, B. reflexivity.
  - unfold index_name. rewrite StorageUse.no_dot_app, C. reflexivity.
Qed.

Inductive slot := SSig | SStruct (k : nat) | SVec (k : nat) | SMul (k : nat) | SRaw (k : nat).
Definition slot_eq_dec (x y : slot) : {x = y} + {x <> y}.
Proof. decide equality; apply Nat.eq_dec. Defined.
Definition opt_list {A B} (f : A -> list B) (x : option A) : list B := match x with Some y => f y | None => [] end.
Definition slot_names (a : adesc) (sl : slot) : list string :=
  match sl with
  | SSig => [signature_name (ad_name a)]
  | SStruct k => opt_list (fun r => [tr_name r]) (nth_error (ad_structs a) k)
  | SVec k => opt_list (fun r => [tr_name r]) (nth_error (ad_vectors a) k)
  | SMul k => opt_list (fun r => [mr_index r; mr_name r]) (nth_error (ad_multis a) k)
  | SRaw k => opt_list (fun r => [rr_name r]) (nth_error (ad_raws a) k)
  end.
Definition slots (a : adesc) : list slot :=
  SSig :: map SStruct (seq 0 (length (ad_structs a))) ++ map SVec (seq 0 (length (ad_vectors a))) ++
  map SMul (seq 0 (length (ad_multis a))) ++ map SRaw (seq 0 (length (ad_raws a))).

Lemma flat_seq {A B} (f : A -> list B) (c : nat -> slot) (g : slot -> list B) l :
  (forall k, g (c k) = opt_list f (nth_error l k)) ->
  flat_map g (map c (seq 0 (length l))) = flat_map f l.
Proof.
  intros H. rewrite (flat_map_concat_map g), map_map.
  rewrite (map_ext _ (fun k => opt_list f (nth_error l k))) by auto.
  clear. induction l as [|x l IH]; auto.
  cbn [length seq map concat nth_error opt_list flat_map]. f_equal.
  rewrite <- seq_shift, map_map. exact IH.
Qed.
Lemma flat_map_sing {A B} (f : A -> B) l : flat_map (fun x => [f x]) l = map f l.
Proof. induction l; simpl; congruence. Qed.
Lemma names_slots a : part_names a = flat_map (slot_names a) (slots a).
Proof.
  unfold part_names, slots. cbn [flat_map slot_names app]. f_equal. rewrite !flat_map_app.
  rewrite (flat_seq (fun r => [tr_name r]) SStruct (slot_names a) (ad_structs a)) by auto.
  rewrite (flat_seq (fun r => [tr_name r]) SVec (slot_names a) (ad_vectors a)) by auto.
  rewrite (flat_seq (fun r => [mr_index r; mr_name r]) SMul (slot_names a) (ad_multis a)) by auto.
  rewrite (flat_seq (fun r => [rr_name r]) SRaw (slot_names a) (ad_raws a)) by auto.
  rewrite !flat_map_sing. reflexivity.
Qed.
Lemma slot_listed a sl n : In n (slot_names a sl) -> In sl (slots a).
Proof.
  assert (E : forall A (f : A -> list string) l k, In n (opt_list f (nth_error l k)) -> In k (seq 0 (length l))).
  { intros A f l k H. apply in_seq. split; [apply Nat.le_0_l|]. apply nth_error_Some.
    destruct (nth_error l k); [discriminate|destruct H]. }
  unfold slots. destruct sl; intros H; [left; auto|right..]; apply E in H; rewrite !in_app_iff.
  - left. apply in_map; auto.
  - right; left. apply in_map; auto.
  - right; right; left. apply in_map; auto.
  - right; right; right. apply in_map; auto.
Qed.
Lemma NoDup_app_disjoint {A} (l l' : list A) x : NoDup (l ++ l') -> In x l -> In x l' -> False.
Proof.
  induction l as [|y l IH]; simpl; [auto|]. intros H [->|I] I'; inversion H; subst.
  - apply H2. apply in_or_app. auto.
  - apply IH; auto.
Qed.
Lemma NoDup_app_r {A} (l l' : list A) : NoDup (l ++ l') -> NoDup l'.
Proof. induction l; simpl; auto. intros H. inversion H; auto. Qed.
Lemma NoDup_flat_map {A B} (f : A -> list B) l x y n : NoDup (flat_map f l) -> In x l -> In y l -> x <> y ->
  In n (f x) -> In n (f y) -> False.
Proof.
  induction l as [|z l IH]; simpl; [auto|]. intros N Ix Iy D Hx Hy.
  destruct Ix as [->|Ix], Iy as [E|Iy].
  - auto.
  - apply (NoDup_app_disjoint _ _ n N Hx). apply in_flat_map. eauto.
  - subst z. apply (NoDup_app_disjoint _ _ n N Hy). apply in_flat_map. eauto.
  - apply NoDup_app_r in N. auto.
Qed.
Lemma slots_disjoint a sl sl' n m : NoDup (part_names a) -> sl <> sl' ->
  In n (slot_names a sl) -> In m (slot_names a sl') -> n <> m.
Proof.
  rewrite names_slots. intros N D Hn Hm ->.
  exact (NoDup_flat_map _ _ sl sl' m N (slot_listed _ _ _ Hn) (slot_listed _ _ _ Hm) D Hn Hm).
Qed.
Lemma slot_part a sl n : In n (slot_names a sl) -> In n (part_names a).
Proof. intros H. rewrite names_slots. apply in_flat_map. exists sl. split; [eapply slot_listed; exact H|exact H]. Qed.

Lemma part_identifier file a n : wf_archive file a -> In n (part_names a) -> n = signature_name (ad_name a) \/ identifier n.
Proof.
  rewrite wf_eq. intros (_ & _ & _ & Hs & Hv & Hm & Hr & _). unfold part_names. rewrite !Forall_forall in *.
  intros [<-|H]; [auto|]. right. rewrite !in_app_iff in H.
  destruct H as [H|[H|[H|H]]].
  - apply in_map_iff in H as (r & <- & I). apply (Hs r I).
  - apply in_map_iff in H as (r & <- & I). apply (Hv r I).
  - apply in_flat_map in H as (r & I & H). destruct (Hm r I) as (A & B & _). destruct H as [<-|[<-|[]]]; auto.
    rewrite B. apply identifier_index. exact A.
  - apply in_map_iff in H as (r & <- & I). apply (Hr r I).
Qed.
Lemma part_valid file a n : wf_archive file a -> In n (part_names a) -> valid_name n.
Proof.
  intros W I. destruct (part_identifier file a n W I) as [->|H].
  - apply signature_valid. apply wf_eq in W. tauto.
  - apply identifier_valid. exact H.
Qed.
Lemma part_unrelated file a n m : wf_archive file a -> In n (part_names a) -> In m (part_names a) -> n <> m -> unrelated n m.
Proof.
  intros W In_ Im D. assert (I : identifier (ad_name a)) by (apply wf_eq in W; tauto).
  destruct (part_identifier file a n W In_) as [->|Hn], (part_identifier file a m W Im) as [->|Hm].
  - congruence.
  - apply signature_unrelated; auto.
  - apply unrelated_sym, signature_unrelated; auto.
  - apply identifiers_unrelated; auto.
Qed.

(** * Keys below a directory *)
Lemma under_res id base n : valid_name n -> under base (res_key (FileStorage id base) n).
Proof. intros H. exists n, []. rewrite res_key_valid by exact H. reflexivity. Qed.
Lemma under_sub base n k : valid_name n -> under (path_join base n) k -> under base k.
Proof.
  intros H (m & r & ->). rewrite key_join by exact H. exists n, (m :: r). cbn [fst snd]. rewrite <- app_assoc. reflexivity.
Qed.
Lemma under_sub_res id base n m k : valid_name n -> valid_name m -> under (path_join base n) k ->
  k <> res_key (FileStorage id base) m.
Proof.
  intros Hn Hm (x & r & ->). rewrite key_join by exact Hn. rewrite res_key_valid by exact Hm. cbn [fst snd st_base].
  intros H. injection H as H. apply (f_equal (@length _)) in H. rewrite !app_length in H. simpl in H. lia.
Qed.
Lemma under_sub_disjoint base n m k : valid_name n -> valid_name m -> under (path_join base n) k -> under (path_join base m) k -> n = m.
Proof.
  intros Hn Hm (x & r & ->) (y & r' & H). rewrite !key_join in H by assumption. cbn [fst snd] in H.
  injection H as H. rewrite <- !app_assoc in H. apply app_inv_head in H. simpl in H. congruence.
Qed.

(** * Frames *)
(** A step that may create storages and concerns the cells in [P] only. *)
Definition frame (P : cell -> Prop) (w w' : world) : Prop :=
  (forall id k, (id < w_next w)%nat -> ~ P (CMem id k) ->
     w_streams w' id k = w_streams w id k /\ w_resources w' id k = w_resources w id k) /\
  (forall k, ~ P (CFile k) -> w_files w' k = w_files w k) /\
  (forall id p, (id < w_next w)%nat -> ~ P (CFile (key_of p)) -> w_maps w' id p = w_maps w id p) /\
  (w_next w <= w_next w')%nat.
Lemma frame_refl P w : frame P w w.
Proof. split; [|split; [|split]]; auto. Qed.
Lemma frame_trans P w1 w2 w3 : frame P w1 w2 -> frame P w2 w3 -> frame P w1 w3.
Proof.
  intros (A1 & A2 & A3 & A4) (B1 & B2 & B3 & B4). split; [|split; [|split]].
  - intros id k H N. destruct (A1 id k H N), (B1 id k ltac:(lia) N). split; congruence.
  - intros k N. rewrite B2, A2; auto.
  - intros id p H N. rewrite B3, A3; auto; lia.
  - lia.
Qed.
Lemma frame_mono (P Q : cell -> Prop) w w' : (forall c, P c -> Q c) -> frame P w w' -> frame Q w w'.
Proof.
  intros H (A1 & A2 & A3 & A4). split; [|split; [|split]]; auto.
Qed.
Lemma touches_frame P w w' : touches P w w' -> frame P w w'.
Proof. intros (A1 & A2 & A3 & A4 & A5). split; [|split; [|split]]; auto. lia. Qed.
Lemma frame_intact (P : cell -> Prop) st n w w' : frame P w w' -> (st_id st < w_next w)%nat -> ~ P (cell_at st n) -> intact st n w w'.
Proof.
  intros (A1 & A2 & A3 & A4) H N. destruct st as [id base|id base]; simpl in *.
  - apply A1; auto.
  - split; [apply A2; auto|apply A3; auto].
Qed.
Lemma file_new_frame P base w : frame P w (snd (file_new base w)).
Proof.
  split; [|split; [|split]]; simpl; auto; try lia.
  intros id p H _. rewrite nupd_other by lia. reflexivity.
Qed.

(** All cells of a storage. *)
Definition region (st : storage) (c : cell) : Prop :=
  match st, c with
  | MemStorage id _, CMem id' _ => id = id'
  | FileStorage _ base, CFile k => under base k
  | _, _ => False
  end.
Lemma region_cell st n : valid_name n -> region st (cell_at st n).
Proof. intros H. destruct st; simpl; auto. apply (under_res id). exact H. Qed.
Lemma region_cells st n c : valid_name n -> cells_of st n c -> region st c.
Proof. intros H [->| ->]; apply region_cell; auto using valid_schema. Qed.

(** * Slots *)
Definition both (st : storage) (n : string) (w w' : world) : Prop :=
  intact st n w w' /\ intact st (schema_name n) w w'.
Definition blank (st : storage) (n : string) (w : world) : Prop :=
  fresh_name st n w /\ bytes_at (cell_at st n) w = None /\ bytes_at (cell_at st (schema_name n)) w = None.
Definition kept_data (st : storage) (n : string) (schema d : list Z) (w : world) : Prop :=
  stored st n schema d w /\ data_ok d.
Definition byte_slot st n schema (o : option (list Z)) w : Prop :=
  match o with None => blank st n w | Some d => kept_data st n schema d w end.
Definition vec_slot st (r : typed_res) (o : vslot) (v : option ext_vec) w : Prop :=
  let s := tr_struct r in
  match o with
  | VUnset => blank st (tr_name r) w
  | VSet d => kept_data st (tr_name r) (tr_schema r) d w
  | VOpen l => Z.of_nat (length l) * s_size s + 16 <= isize_max /\
      exists v' W rest, v = Some v' /\ ev_inv st (tr_name r) (tr_schema r) s v' w (elements s l) W rest (zeros 8 ++ W)
  | VClosed l => exists D, kept_data st (tr_name r) (tr_schema r) D w /\ array_of s D (elements s l) /\ records s D = elements s l
  end.
Definition mul_slot st (r : multi_res) (o : mslot) (v : option multi_vec) w : Prop :=
  let is := index_struct (mr_size r) (mr_bits r) in
  match o with
  | MUnset => blank st (mr_index r) w /\ blank st (mr_name r) w
  | MOpen l => buckets_size (mr_types r) l < 2 ^ mr_bits r /\ buckets_size (mr_types r) l + 16 <= isize_max /\
      (Z.of_nat (length l) + 1) * mr_size r + 16 <= isize_max /\
      exists v' bs, v = Some v' /\ len (concat bs) = buckets_size (mr_types r) l /\
        mv_inv st (mr_name r) (mr_schema r) (mr_types r) (mr_size r) (mr_bits r) v' w (bounds 0 bs) (buckets (mr_types r) l) bs true
  | MClosed l => exists bs Di, Forall2 (bucket_of (mr_types r)) bs (buckets (mr_types r) l) /\
      (records is Di = map (fun x => [x]) (bounds 0 bs ++ [len (concat bs)]) /\
       array_of is Di (map (fun x => [x]) (bounds 0 bs ++ [len (concat bs)]))) /\
      kept_data st (mr_index r) (index_schema (mr_schema r)) Di w /\ kept_data st (mr_name r) (mr_schema r) (concat bs) w
  end.
Definition at_slot {R} (x : option R) (P : R -> Prop) : Prop := match x with Some r => P r | None => True end.
Definition slot_ok (a : adesc) (st : storage) (A : plan) (s : bstate) (sl : slot) (w : world) : Prop :=
  match sl with
  | SSig => stored st (signature_name (ad_name a)) (ad_schema a) [] w
  | SStruct k => at_slot (nth_error (ad_structs a) k) (fun r => byte_slot st (tr_name r) (tr_schema r) (pl_structs A k) w)
  | SVec k => at_slot (nth_error (ad_vectors a) k) (fun r => vec_slot st r (pl_vecs A k) (bs_vecs s k) w)
  | SMul k => at_slot (nth_error (ad_multis a) k) (fun r => mul_slot st r (pl_muls A k) (bs_muls s k) w)
  | SRaw k => at_slot (nth_error (ad_raws a) k) (fun r => byte_slot st (rr_name r) (rr_schema r) (pl_raws A k) w)
  end.

Lemma finds_intact st n w w' x : intact st n w w' -> finds st w n x -> finds st w' n x.
Proof.
  destruct st as [id base|id base]; simpl; intros [A B].
  - rewrite A, B. auto.
  - rewrite A, B. auto.
Qed.
Lemma unused_intact st n w w' : intact st n w w' -> unused st n w -> unused st n w'.
Proof. destruct st as [id base|id base]; simpl; intros [A B]; [rewrite A, B|rewrite B]; auto. Qed.
Lemma blank_intact st n w w' : both st n w w' -> blank st n w -> blank st n w'.
Proof.
  intros [I J] ((U & V) & A & B). split; [split|split].
  - eapply unused_intact; eauto.
  - eapply unused_intact; eauto.
  - rewrite (intact_bytes _ _ _ _ I). exact A.
  - rewrite (intact_bytes _ _ _ _ J). exact B.
Qed.
Lemma stored_intact st n schema d w w' : both st n w w' -> stored st n schema d w -> stored st n schema d w'.
Proof.
  intros [I J] (A & B & C & D). split; [|split; [|split]].
  - rewrite (intact_bytes _ _ _ _ I). exact A.
  - rewrite (intact_bytes _ _ _ _ J). exact B.
  - eapply finds_intact; eauto.
  - eapply finds_intact; eauto.
Qed.
Lemma kept_intact st n schema d w w' : both st n w w' -> kept_data st n schema d w -> kept_data st n schema d w'.
Proof. intros I [A B]. split; [eapply stored_intact; eauto|exact B]. Qed.
Lemma byte_intact st n schema o w w' : both st n w w' -> byte_slot st n schema o w -> byte_slot st n schema o w'.
Proof. destruct o; simpl; [apply kept_intact|apply blank_intact]. Qed.
Lemma vec_intact st r o v w w' : both st (tr_name r) w w' -> vec_slot st r o v w -> vec_slot st r o v w'.
Proof.
  intros I. destruct o; simpl.
  - apply blank_intact; auto.
  - apply kept_intact; auto.
  - intros (B & v' & W & rest & E & H). split; [exact B|]. exists v', W, rest. split; [exact E|].
    destruct I. eapply ev_inv_intact; eauto.
  - intros (D & K & H). exists D. split; [eapply kept_intact; eauto|exact H].
Qed.
Lemma mul_intact st r o v w w' : mr_index r = index_name (mr_name r) ->
  both st (mr_index r) w w' -> both st (mr_name r) w w' -> mul_slot st r o v w -> mul_slot st r o v w'.
Proof.
  intros E I J. destruct o; simpl.
  - intros [A B]. split; eapply blank_intact; eauto.
  - intros (B1 & B2 & B3 & v' & bs & V & L & H). split; [exact B1|]. split; [exact B2|]. split; [exact B3|].
    exists v', bs. split; [exact V|]. split; [exact L|].
    eapply mv_inv_intact; [|exact H]. rewrite E in I. destruct I, J.
    intros n [<-|[<-|[<-|[<-|[]]]]]; auto.
  - intros (bs & Di & A & B & C & D). exists bs, Di. split; [exact A|]. split; [exact B|].
    split; eapply kept_intact; eauto.
Qed.
Lemma slot_intact file a st A s sl w w' : wf_archive file a ->
  (forall n, In n (slot_names a sl) -> both st n w w') -> slot_ok a st A s sl w -> slot_ok a st A s sl w'.
Proof.
  intros Wf I. destruct sl as [|k|k|k|k]; cbn [slot_ok slot_names] in *.
  - apply stored_intact. apply I. left; auto.
  - destruct (nth_error (ad_structs a) k); cbn [at_slot opt_list] in *; auto. apply byte_intact, I. left; auto.
  - destruct (nth_error (ad_vectors a) k); cbn [at_slot opt_list] in *; auto. apply vec_intact, I. left; auto.
  - destruct (nth_error (ad_multis a) k) as [r|] eqn:E; cbn [at_slot opt_list] in *; auto. apply mul_intact.
    + apply wf_eq in Wf. destruct Wf as (_ & _ & _ & _ & _ & Hm & _). rewrite Forall_forall in Hm.
      apply nth_error_In in E. apply (Hm r E).
    + apply I. left; auto.
    + apply I. right; left; auto.
  - destruct (nth_error (ad_raws a) k); cbn [at_slot opt_list] in *; auto. apply byte_intact, I. left; auto.
Qed.

(** * Builders and what they have written *)
Definition sub_blank (st : storage) (n : string) (w : world) : Prop :=
  match st with
  | FileStorage _ base => forall k, under (path_join base n) k -> w_files w k = None
  | MemStorage _ _ => True
  end.
Fixpoint sim (a : adesc) (st : storage) (A : plan) (s : bstate) (w : world) {struct a} : Prop :=
  let 'mkArchive _ _ _ _ _ _ subs := a in
  bs_st s = st /\ (st_id st < w_next w)%nat /\ (forall sl, slot_ok a st A s sl w) /\
  (fix go (k : nat) (l : list (string * adesc * bool)) : Prop :=
     match l with
     | [] => True
     | (n, a', _) :: l =>
         match pl_subs A k with
         | None => sub_blank st n w
         | Some A' => is_file st = true /\ exists id s', bs_subs s k = Some s' /\
             sim a' (FileStorage id (path_join (st_base st) n)) A' s' w
         end /\ go (S k) l
     end) O subs.
Definition sub_sim (st : storage) (A : plan) (s : bstate) (w : world) (k : nat) (x : string * adesc * bool) : Prop :=
  match pl_subs A k with
  | None => sub_blank st (fst (fst x)) w
  | Some A' => is_file st = true /\ exists id s', bs_subs s k = Some s' /\
      sim (snd (fst x)) (FileStorage id (path_join (st_base st) (fst (fst x)))) A' s' w
  end.
Lemma sim_eq a st A s w : sim a st A s w <->
  bs_st s = st /\ (st_id st < w_next w)%nat /\ (forall sl, slot_ok a st A s sl w) /\
  (forall k x, nth_error (ad_subs a) k = Some x -> sub_sim st A s w k x).
Proof.
  destruct a as [name schema ss vs ms rs subs]. cbn [sim ad_subs].
  assert (E : forall l i, (fix go (k : nat) (l : list (string * adesc * bool)) : Prop :=
     match l with
     | [] => True
     | (n, a', _) :: l =>
         match pl_subs A k with
         | None => sub_blank st n w
         | Some A' => is_file st = true /\ exists id s', bs_subs s k = Some s' /\
             sim a' (FileStorage id (path_join (st_base st) n)) A' s' w
         end /\ go (S k) l
     end) i l <-> forall k x, nth_error l k = Some x -> sub_sim st A s w (i + k) x).
  { intros l; induction l as [|[[n a'] o] l IH]; intros i.
    - split; [intros _ [|k] x H; discriminate H|auto].
    - rewrite IH. split.
      + intros [H H'] [|k] x Hk; cbn [nth_error] in Hk.
        * injection Hk as <-. rewrite Nat.add_0_r. exact H.
        * rewrite <- Nat.add_succ_comm. auto.
      + intros H. split.
        * specialize (H O _ eq_refl). rewrite Nat.add_0_r in H. exact H.
        * intros k x Hk. rewrite Nat.add_succ_comm. apply H. exact Hk. }
  rewrite E. tauto.
Qed.

Lemma sub_blank_frame (P : cell -> Prop) st n w w' : frame P w w' ->
  (forall c, region st c -> ~ P c) -> valid_name n -> sub_blank st n w -> sub_blank st n w'.
Proof.
  intros F N V. destruct st as [id base|id base]; simpl; auto. intros H k U.
  destruct F as (_ & F & _). rewrite F; [auto|]. apply N. simpl. eapply under_sub; eauto.
Qed.
Lemma region_sub id id' base n c : valid_name n ->
  region (FileStorage id' (path_join base n)) c -> region (FileStorage id base) c.
Proof. intros V. destruct c; simpl; auto. apply under_sub. exact V. Qed.
Lemma sub_valid file a x : wf_archive file a -> In x (ad_subs a) -> valid_name (fst (fst x)) /\ wf_archive file (snd (fst x)).
Proof.
  intros Wf I. apply wf_eq in Wf. destruct Wf as (_ & _ & _ & _ & _ & _ & _ & _ & H). rewrite Forall_forall in H.
  destruct (H x I). split; [apply identifier_valid|]; auto.
Qed.

Lemma sim_frame file (P : cell -> Prop) a : forall st A s w w', wf_archive file a -> sim a st A s w -> frame P w w' ->
  (forall c, region st c -> ~ P c) -> sim a st A s w'.
Proof.
  induction a as [name schema ss vs ms rs subs IH] using adesc_deep_ind. intros st A s w w' Wf.
  rewrite !sim_eq. intros (E & B & S & U) F N. split; [exact E|]. split; [destruct F as (_ & _ & _ & F); lia|].
  set (a := mkArchive name schema ss vs ms rs subs) in *.
  split.
  - intros sl. eapply slot_intact; [exact Wf| |apply S]. intros n I. apply slot_part in I.
    assert (V := part_valid _ _ _ Wf I). split; eapply frame_intact; eauto; apply N, region_cell; auto using valid_schema.
  - intros k x Hk. specialize (U k x Hk). unfold sub_sim in *.
    assert (I := nth_error_In _ _ Hk). destruct (sub_valid _ _ _ Wf I) as [V Wx].
    destruct (pl_subs A k) as [A'|].
    + destruct U as (Fs & id & s' & Es & H). split; [exact Fs|]. exists id, s'. split; [exact Es|].
      rewrite Forall_forall in IH. eapply (IH x I); eauto.
      intros c R. apply N. destruct st as [i base|i base]; [discriminate|]. eapply region_sub; eauto.
    + eapply sub_blank_frame; eauto.
Qed.

(** A step at one slot. *)
Definition same_at (a : adesc) st A s A' s' (sl : slot) : Prop :=
  forall w, slot_ok a st A s sl w -> slot_ok a st A' s' sl w.
Lemma local_rest file a st A s sl0 w w' : wf_archive file a -> sim a st A s w ->
  touches (fun c => exists n, In n (slot_names a sl0) /\ cells_of st n c) w w' ->
  frame (region st) w w' /\ (forall sl, sl <> sl0 -> slot_ok a st A s sl w') /\
  (forall k x, nth_error (ad_subs a) k = Some x -> sub_sim st A s w' k x).
Proof.
  intros Wf Hs T.
  set (P := fun c => exists n, In n (slot_names a sl0) /\ cells_of st n c) in *.
  assert (F : frame (region st) w w').
  { apply (frame_mono P); [|apply touches_frame; exact T]. intros c (n & I & C).
    eapply region_cells; [|exact C]. eapply part_valid; [exact Wf|]. eapply slot_part; exact I. }
  split; [exact F|]. apply sim_eq in Hs. destruct Hs as (E & B & S & U). split.
  - intros sl D.
    eapply slot_intact; [exact Wf| |apply S]. intros n I.
    assert (Np : ~ P (cell_at st n) /\ ~ P (cell_at st (schema_name n))).
    { assert (In_ := slot_part _ _ _ I).
      split; intros (m & Im & C); assert (Imm := slot_part _ _ _ Im);
        assert (D' := slots_disjoint a sl sl0 n m ltac:(apply wf_eq in Wf; tauto) D I Im);
        destruct (unrelated_cells st m n) as [X Y]; eauto using part_valid, part_unrelated. }
    split; eapply touches_intact; eauto; tauto.
  - intros k x Hk. specialize (U k x Hk). unfold sub_sim in *.
    assert (I := nth_error_In _ _ Hk). destruct (sub_valid _ _ _ Wf I) as [V Wx].
    assert (Np : forall id base, st = FileStorage id base -> forall k, under (path_join base (fst (fst x))) k -> ~ P (CFile k)).
    { intros id base -> k' Uk (m & Im & C). assert (Vm := part_valid _ _ _ Wf (slot_part _ _ _ Im)).
      destruct C as [C|C]; injection C as C.
      - exact (under_sub_res id base _ _ _ V Vm Uk C).
      - exact (under_sub_res id base _ _ _ V (valid_schema _ Vm) Uk C). }
    destruct (pl_subs A k) as [A1|].
    + destruct U as (Fs & id & s1 & Es & H). split; [exact Fs|]. exists id, s1. split; [exact Es|].
      destruct st as [i base|i base]; [discriminate|]. cbn [st_base] in *.
      eapply sim_frame; [exact Wx|exact H|apply touches_frame; exact T|].
      intros [i' k'|k'] R; simpl in R; [destruct R|]. eapply Np; eauto.
    + destruct st as [i base|i base]; simpl in *; auto. intros k' Uk.
      destruct T as (_ & T & _). rewrite T; [auto|]. eapply Np; eauto.
Qed.
Lemma local_step file a st A s A' s' sl0 w w' : wf_archive file a -> sim a st A s w ->
  bs_st s' = bs_st s -> bs_subs s' = bs_subs s -> pl_subs A' = pl_subs A ->
  (forall sl, sl <> sl0 -> same_at a st A s A' s' sl) ->
  touches (fun c => exists n, In n (slot_names a sl0) /\ cells_of st n c) w w' ->
  slot_ok a st A' s' sl0 w' ->
  sim a st A' s' w' /\ frame (region st) w w'.
Proof.
  intros Wf Hs E1 E2 E3 Same T S0. destruct (local_rest _ _ _ _ _ _ _ _ Wf Hs T) as (F & S & U).
  split; [|exact F]. apply sim_eq in Hs. destruct Hs as (E & B & _). apply sim_eq.
  split; [congruence|]. split; [destruct F as (_ & _ & _ & F); lia|]. split.
  - intros sl. destruct (slot_eq_dec sl sl0) as [->|D]; [exact S0|]. apply Same; auto.
  - intros k x Hk. specialize (U k x Hk). unfold sub_sim in *. rewrite E3, E2. exact U.
Qed.

(** A step in a sub-archive. *)
Lemma sub_rest file a id base A s w w' k x id' : wf_archive file a -> let st := FileStorage id base in
  sim a st A s w -> nth_error (ad_subs a) k = Some x ->
  let st' := FileStorage id' (path_join base (fst (fst x))) in
  frame (region st') w w' ->
  frame (region st) w w' /\ (forall sl, slot_ok a st A s sl w') /\
  (forall k2 x2, k2 <> k -> nth_error (ad_subs a) k2 = Some x2 -> sub_sim st A s w' k2 x2).
Proof.
  intros Wf st Hs Hk st' F. assert (I := nth_error_In _ _ Hk). destruct (sub_valid _ _ _ Wf I) as [V Wx].
  assert (F' : frame (region st) w w').
  { eapply frame_mono; [|exact F]. intros c. apply region_sub. exact V. }
  split; [exact F'|]. apply sim_eq in Hs. destruct Hs as (E & B & S & U). split.
  - intros sl.
    eapply slot_intact; [exact Wf| |apply S]. intros n In_. assert (Vn := part_valid _ _ _ Wf (slot_part _ _ _ In_)).
    split; (eapply frame_intact; [exact F|exact B|]); cbn [region cell_at st st']; intros R.
    + exact (under_sub_res id base _ n _ V Vn R eq_refl).
    + exact (under_sub_res id base _ (schema_name n) _ V (valid_schema _ Vn) R eq_refl).
  - intros k2 x2 D Hk2. specialize (U k2 x2 Hk2). assert (I2 := nth_error_In _ _ Hk2).
    destruct (sub_valid _ _ _ Wf I2) as [V2 Wx2]. unfold sub_sim in *.
    assert (Dn : fst (fst x2) <> fst (fst x)).
    { intros En. apply wf_eq in Wf. destruct Wf as (_ & _ & _ & _ & _ & _ & _ & ND & _).
      apply D. eapply NoDup_nth_error; [exact ND| |].
      - rewrite map_length. apply nth_error_Some. congruence.
      - rewrite !nth_error_map, Hk, Hk2. simpl. congruence. }
    assert (Np : forall k', under (path_join base (fst (fst x2))) k' -> ~ region st' (CFile k')).
    { intros k' U' R. simpl in R. apply Dn. eapply under_sub_disjoint; eauto. }
    destruct (pl_subs A k2) as [A2|].
    + destruct U as (Fs & i2 & s2 & Es & H). split; [exact Fs|]. exists i2, s2. split; [exact Es|].
      eapply sim_frame; [exact Wx2|exact H|exact F|].
      intros [i' k'|k'] R; [destruct R|]. apply Np. exact R.
    + simpl in *. intros k' U'. destruct F as (_ & F & _). rewrite F; [auto|]. apply Np. exact U'.
Qed.
Lemma sub_step file a id base A s w w' k x id' A1 s1 : wf_archive file a -> let st := FileStorage id base in
  sim a st A s w -> nth_error (ad_subs a) k = Some x ->
  let st' := FileStorage id' (path_join base (fst (fst x))) in
  frame (region st') w w' -> sim (snd (fst x)) st' A1 s1 w' ->
  sim a st (pl_sub k (Some A1) A) (put_sub k (Some s1) s) w' /\ frame (region st) w w'.
Proof.
  intros Wf st Hs Hk st' F H1. destruct (sub_rest _ _ _ _ _ _ _ _ _ _ _ Wf Hs Hk F) as (F' & S & U).
  split; [|exact F']. apply sim_eq in Hs. destruct Hs as (E & B & _). apply sim_eq.
  split; [exact E|]. split; [destruct F as (_ & _ & _ & F); lia|]. split.
  - intros sl. specialize (S sl). destruct sl; exact S.
  - intros k2 x2 Hk2. destruct (Nat.eq_dec k2 k) as [->|D].
    + unfold sub_sim, pl_sub, put_sub. cbn [pl_subs bs_subs]. rewrite !nupd_same. split; [reflexivity|].
      rewrite Hk in Hk2. injection Hk2 as <-. exists id', s1. auto.
    + specialize (U k2 x2 D Hk2). unfold sub_sim, pl_sub, put_sub in *. cbn [pl_subs bs_subs]. rewrite !nupd_other by exact D. exact U.
Qed.

(** * One call *)
Lemma schema_ok_file st st' schema : is_file st = is_file st' -> schema_ok st schema -> schema_ok st' schema.
Proof. intros E (A & B & C & D). rewrite E in D. split; auto. Qed.
Lemma schema_ok_like file st schema : is_file st = file ->
  schema_ok (if file then FileStorage 0 "" else MemStorage 0 "") schema -> schema_ok st schema.
Proof. intros <-. apply schema_ok_file. destruct st; reflexivity. Qed.
Lemma mv_schema_ok_like file st schema : is_file st = file ->
  mv_schema_ok (if file then FileStorage 0 "" else MemStorage 0 "") schema -> mv_schema_ok st schema.
Proof. intros E [A B]. split; [eapply schema_ok_like; eauto|exact B]. Qed.

Lemma write_kept b e st n schema d w w' : blank st n w -> schema_ok st schema -> data_ok d ->
  write b e st n schema d w = (Ret (Ok tt), w') -> kept_data st n schema d w'.
Proof.
  intros ((U & V) & _) Hs Hd R. destruct (fresh_start _ _ _ U) as [A1 A2]. destruct (fresh_start _ _ _ V) as [B1 B2].
  destruct (write_cases b e st n schema d w _ w' A1 B1 R) as [(T & C & _) [(_ & X & Y)|(_ & F & _)]].
  - rewrite A2, app_nil_l in X. rewrite B2, app_nil_l in Y. split; [|exact Hd]. split; [exact X|]. split; [exact Y|]. split.
    + eapply finds_cell; eauto. intros _. apply resource_bytes_nonempty.
    + eapply finds_cell; eauto. apply Hs.
  - destruct F as [[k F]|F]; discriminate F.
Qed.

Lemma step_maps P w w' : step P w w' -> maps_ok w -> maps_ok w'.
Proof. intros (_ & C & _). apply maps_ok_caches. exact C. Qed.
Ltac same_slots := intros sl D ? H; destruct sl as [|j|j|j|j]; try exact H;
  cbn [slot_ok pl_struct pl_vec pl_mul pl_raw put_vec put_mul pl_structs pl_vecs pl_muls pl_raws bs_vecs bs_muls] in *;
  rewrite ?nupd_other by congruence; try exact H.

Lemma builder_new_ok file b e a st w st' w' : wf_archive file a -> is_file st = file -> maps_ok w -> unused_storage st w ->
  builder_new b e a st w = (Ret (Ok st'), w') ->
  st' = st /\ sim a st no_plan (new_bstate st) w' /\ frame (region st) w w' /\ maps_ok w'.
Proof.
  intros Wf Fl M [Hid Un] R. unfold builder_new, mtry in R. apply bind_ret in R as (x & w1 & R & R').
  destruct x as [[]|x]; [|discriminate R']. injection R' as <- <-.
  assert (Wf' := Wf). apply wf_eq in Wf' as (Hi & Hs & _ & _ & _ & Hm & _).
  set (n := signature_name (ad_name a)) in *.
  assert (Bl : forall m, valid_name m -> blank st m w).
  { intros m V. assert (V' := valid_schema m V). unfold blank, fresh_name.
    destruct st as [id base|id base]; simpl in *.
    - rewrite !(proj1 (Un _)), !(proj2 (Un _)). auto.
    - destruct Un as [U1 U2]. rewrite !U1. rewrite !U2 by (apply (under_res id); auto). auto. }
  unfold create_archive in R. apply bind_ret in R as (ex & w2 & Rx & R).
  assert (T0 : touches nothing w w2 /\ same_caches w w2).
  { unfold exists_ in Rx. destruct st as [id base|id base]; [injection Rx as _ <-; split; [apply touches_refl|apply same_caches_refl]|].
    unfold path_exists in Rx. apply bind_ret in Rx as (r & w3 & Rx & Ry).
    assert (w2 = w3) by (destruct r; injection Ry; auto). subst w3. clear Ry.
    unfold syscall, next_fault in Rx. destruct (w_faults w) as [|f fs]; [injection Rx as _ <-; split; [apply touches_refl|apply same_caches_refl]|].
    assert (w2 = set_faults fs w) by (destruct f; congruence). subst w2. split; [apply touches_faults|split; reflexivity]. }
  destruct T0 as [T0 C0].
  destruct ex; [discriminate R|]. unfold mtry in R. apply bind_ret in R as (r & w3 & R & R').
  destruct r as [[]|r]; [|discriminate R']. injection R' as <-.
  assert (Np : forall c, ~ @nothing c) by (intros c []).
  assert (Bl2 : forall m, valid_name m -> blank st m w2).
  { intros m V. eapply blank_intact; [|apply Bl; exact V]. split; eapply touches_intact; eauto. }
  assert (Vn := signature_valid _ Hi). fold n in Vn.
  assert (W := write_touches _ _ _ _ _ _ _ _ _ R). fold n in W.
  assert (M' : maps_ok w3) by (eapply step_maps; [exact W|]; eapply maps_ok_caches; eauto).
  assert (F : frame (region st) w w3).
  { eapply frame_trans; [apply touches_frame, touches_nothing; exact T0|].
    eapply frame_mono; [|apply touches_frame; apply W]. intros c. apply region_cells. exact Vn. }
  split; [reflexivity|]. split; [|split; [exact F|exact M']].
  apply sim_eq. split; [reflexivity|]. split; [destruct F as (_ & _ & _ & F); lia|].
  assert (BlW : forall m, In m (part_names a) -> m <> n -> blank st m w3).
  { intros m I D. assert (V := part_valid _ _ _ Wf I). eapply blank_intact; [|apply Bl2; exact V].
    destruct (unrelated_cells st n m Vn V) as [X Y].
    { eapply part_unrelated; eauto. left. reflexivity. }
    split; eapply touches_intact; try apply W; assumption. }
  assert (Ns : forall sl m, sl <> SSig -> In m (slot_names a sl) -> blank st m w3).
  { intros sl m D I. apply BlW; [eapply slot_part; eauto|]. intros ->.
    eapply (slots_disjoint a sl SSig n n); [apply wf_eq in Wf; tauto|exact D|exact I|left; reflexivity|reflexivity]. }
  split.
  - intros sl. destruct sl as [|k|k|k|k]; cbn [slot_ok no_plan new_bstate pl_structs pl_vecs pl_muls pl_raws].
    + eapply write_kept; [apply Bl2; exact Vn| | |exact R].
      * eapply schema_ok_like; eauto.
      * split; [constructor|]. discriminate.
    + destruct (nth_error (ad_structs a) k) eqn:E; simpl; auto. apply (Ns (SStruct k)); [discriminate|]. simpl. rewrite E. left; auto.
    + destruct (nth_error (ad_vectors a) k) eqn:E; simpl; auto. apply (Ns (SVec k)); [discriminate|]. simpl. rewrite E. left; auto.
    + destruct (nth_error (ad_multis a) k) eqn:E; simpl; auto. split; apply (Ns (SMul k)); try discriminate; simpl; rewrite E; simpl; auto.
    + destruct (nth_error (ad_raws a) k) eqn:E; simpl; auto. apply (Ns (SRaw k)); [discriminate|]. simpl. rewrite E. left; auto.
  - intros k x Hk. unfold sub_sim. simpl. assert (I := nth_error_In _ _ Hk). destruct (sub_valid _ _ _ Wf I) as [V _].
    destruct st as [id base|id base]; simpl; auto. intros k' U.
    assert (E : w_files w3 k' = w_files w2 k').
    { destruct W as ((_ & W & _) & _). apply W. intros [C|C]; injection C as C.
      - exact (under_sub_res id base _ _ _ V Vn U C).
      - exact (under_sub_res id base _ _ _ V (valid_schema _ Vn) U C). }
    rewrite E. destruct T0 as (_ & T0 & _). rewrite T0 by apply Np. apply (proj2 Un). eapply under_sub; eauto.
Qed.

Lemma elements_snoc s l x : elements s (l ++ [x]) = elements s l ++ [apply_sets x (zero_record s)].
Proof. unfold elements. rewrite map_app. reflexivity. Qed.
Lemma buckets_snoc ts l x : buckets ts (l ++ [x]) = buckets ts l ++ [map (item_value ts) x].
Proof. unfold buckets. rewrite map_app. reflexivity. Qed.
Lemma buckets_size_snoc ts l x : buckets_size ts (l ++ [x]) = buckets_size ts l + items_size ts x.
Proof. induction l as [|y l IH]; simpl; [lia|rewrite IH; lia]. Qed.
Lemma sl_bytes_data v : slice_ok v -> sl_len v + 16 <= isize_max -> data_ok (sl_bytes v).
Proof.
  intros ((A & B) & C & D) L. split.
  - unfold sl_bytes. apply bytes_ok_firstn. exact D.
  - unfold sl_bytes. rewrite len_firstn; lia.
Qed.

Lemma write_slot file b e a st A s A' sl n schema d w w' : wf_archive file a -> sim a st A s w ->
  slot_names a sl = [n] -> blank st n w -> schema_ok st schema -> data_ok d -> maps_ok w ->
  pl_subs A' = pl_subs A -> (forall sl', sl' <> sl -> same_at a st A s A' s sl') ->
  write b e st n schema d w = (Ret (Ok tt), w') ->
  (kept_data st n schema d w' -> slot_ok a st A' s sl w') ->
  sim a st A' s w' /\ frame (region st) w w' /\ maps_ok w'.
Proof.
  intros Wf Hs Hn Bl So Do M E Same R K. assert (W := write_touches _ _ _ _ _ _ _ _ _ R).
  destruct (local_step file a st A s A' s sl w w' Wf Hs eq_refl eq_refl E Same) as [X Y].
  - eapply touches_mono; [|apply W]. intros c C. exists n. rewrite Hn. split; [left; auto|exact C].
  - apply K. eapply write_kept; eauto.
  - split; [exact X|]. split; [exact Y|]. eapply step_maps; eauto.
Qed.

Lemma is_ok_true {A E} (r : result A E) : true = is_ok r -> exists y, r = Ok y.
Proof. destruct r; [eauto|discriminate]. Qed.
Lemma ret_pair {A B} (x x' : A) (y y' : B) w w' : mret (x, y) w = (Ret (x', y'), w') -> x' = x /\ y' = y /\ w' = w.
Proof. unfold mret. intros H. inversion H. auto. Qed.

Lemma index_bits_nonneg size bits : wf_struct (index_struct size bits) -> 0 <= bits.
Proof. intros (_ & F & _). inversion F as [|f l (_ & B & _)]; subst. simpl in B. lia. Qed.

Lemma bstep_ok file b e lim o : forall a st A s w A' s' w', wf_archive file a -> is_file st = file -> maps_ok w ->
  sim a st A s w -> may file a A o A' -> bstep b e lim a o s w = (Ret (true, s'), w') ->
  sim a st A' s' w' /\ frame (region st) w w' /\ maps_ok w'.
Proof.
  induction o as [k m|k v|k|k sets|k|k|k items|k|k d|k|k o IH]; intros a st A s w A' s' w' Wf Fl M Hs Hm R;
    inversion Hm; subst; cbn [bstep] in R;
    assert (Est : bs_st s = st) by (apply sim_eq in Hs; tauto); rewrite ?Est in R;
    assert (Ws := Wf); apply wf_eq in Ws; destruct Ws as (_ & _ & _ & Ws & Wv & Wm & Wr & _ & Wu);
    rewrite Forall_forall in Ws, Wv, Wm, Wr, Wu;
    match goal with H : nth_error _ _ = Some _ |- _ => assert (I := nth_error_In _ _ H); rename H into Hk end;
    match goal with
    | H : pl_structs _ _ = _ |- _ => rename H into Hp
    | H : pl_vecs _ _ = _ |- _ => rename H into Hp
    | H : pl_muls _ _ = _ |- _ => rename H into Hp
    | H : pl_raws _ _ = _ |- _ => rename H into Hp
    | H : pl_subs _ _ = _ |- _ => rename H into Hp
    end;
    try match goal with
    | H : sets_ok _ _ |- _ => rename H into Hok
    | H : items_ok _ _ |- _ => rename H into Hok
    | H : may _ _ _ _ _ |- _ => match type of Hm with ?T => match type of H with T => fail 1 | _ => rename H into Hok end end
    end;
    rewrite ?Hk in R; cbn [with_some] in R;
    assert (S := Hs); apply sim_eq in S; destruct S as (_ & Hid & S & U).
  - (* struct *)
    apply bind_ret in R as (x & w1 & R & R'). apply ret_pair in R' as (Ex & -> & ->).
    apply is_ok_true in Ex as [[] ->]. specialize (S (SStruct k)). cbn [slot_ok] in S. rewrite Hk in S. cbn [at_slot] in S.
    unfold set_struct in R. replace (_ <=? _) with true in R by (symmetry; apply Z.leb_le; assumption).
    destruct (Ws r I) as [_ So]. rewrite Hp in S.
    eapply (write_slot _ b e a st A s _ (SStruct k)); eauto.
    + cbn [slot_names]. rewrite Hk. reflexivity.
    + eapply schema_ok_like; eauto.
    + split; [apply bytes_ok_firstn; assumption|]. unfold len. rewrite firstn_length. unfold len in *.
      assert (16 <= isize_max) by discriminate. lia.
    + same_slots.
    + intros K. cbn [slot_ok]. rewrite Hk. cbn [at_slot pl_struct pl_structs]. rewrite nupd_same. exact K.
  - (* vector *)
    apply bind_ret in R as (x & w1 & R & R'). apply ret_pair in R' as (Ex & -> & ->).
    apply is_ok_true in Ex as [[] ->]. specialize (S (SVec k)). cbn [slot_ok] in S. rewrite Hk in S. cbn [at_slot] in S.
    destruct (Wv r I) as [[_ So] _]. rewrite Hp in S.
    eapply (write_slot _ b e a st A s _ (SVec k)); eauto.
    + cbn [slot_names]. rewrite Hk. reflexivity.
    + eapply schema_ok_like; eauto.
    + apply sl_bytes_data; assumption.
    + same_slots.
    + intros K. cbn [slot_ok]. rewrite Hk. cbn [at_slot pl_vec pl_vecs]. rewrite nupd_same. exact K.
  - (* start vector *)
    apply bind_ret in R as (x & w1 & R & R').
    destruct x as [v|x]; apply ret_pair in R' as (Ex & -> & ->); [|discriminate Ex].
    specialize (S (SVec k)). cbn [slot_ok] in S. rewrite Hk in S. cbn [at_slot] in S. rewrite Hp in S. destruct S as [Fr _].
    destruct (Wv r I) as [[_ So] Wst].
    destruct (create_ev_cases b e st _ _ (tr_struct r) w _ w1 Fr R) as [T [(v' & E & Hv)|(_ & F & _)]].
    2:{ destruct F as [[kk F]|F]; discriminate F. }
    injection E as <-.
    destruct (local_step (is_file st) a st A s (pl_vec k (VOpen []) A) (put_vec k (Some v) s) (SVec k) w w1 Wf Hs eq_refl eq_refl eq_refl) as [X Y].
    + same_slots.
    + eapply touches_mono; [|apply T]. intros c C. exists (tr_name r). cbn [slot_names]. rewrite Hk. split; [left; auto|exact C].
    + cbn [slot_ok]. rewrite Hk. cbn [at_slot pl_vec pl_vecs put_vec bs_vecs]. rewrite !nupd_same. cbn [vec_slot].
      split; [discriminate|]. exists v, [], []. split; [reflexivity|]. exact Hv.
    + split; [exact X|]. split; [exact Y|]. eapply step_maps; eauto.
  - (* grow *)
    specialize (S (SVec k)). cbn [slot_ok] in S. rewrite Hk in S. cbn [at_slot] in S. rewrite Hp in S. cbn [vec_slot] in S.
    destruct S as (Sz & v & W & rest & Ev & Hv). rewrite Ev in R. cbn [with_some] in R.
    apply bind_ret in R as (x & w1 & R & R'). apply ret_pair in R' as (Ex & -> & ->).
    destruct x as [fl v1]. cbn [fst snd] in *. subst fl.
    destruct (Wv r I) as [[_ So] Wst].
    assert (Ll : Z.of_nat (length (elements (tr_struct r) l)) = Z.of_nat (length l)) by (rewrite elements_length; reflexivity).
    destruct (ev_step_cases b e lim _ sets st _ _ v w _ W rest _ _ w1 Wst Hok Hv ltac:(rewrite Ll; lia) R)
      as [T [(v2 & W2 & r2 & c2 & E & Hv2 & Hc)|(_ & _ & [(v2 & c2 & E & _)|[E _]])]]; [|discriminate E|discriminate E].
    injection E as <-. specialize (Hc eq_refl). subst c2.
    destruct (local_step (is_file st) a st A s (pl_vec k (VOpen (l ++ [sets])) A) (put_vec k (Some v1) s) (SVec k) w w1 Wf Hs eq_refl eq_refl eq_refl) as [X Y].
    + same_slots.
    + eapply touches_mono; [|apply T]. intros c <-. exists (tr_name r). cbn [slot_names]. rewrite Hk. split; [left; auto|left; auto].
    + cbn [slot_ok]. rewrite Hk. cbn [at_slot pl_vec pl_vecs put_vec bs_vecs]. rewrite !nupd_same. cbn [vec_slot].
      split; [rewrite app_length, Nat2Z.inj_add; cbn [length]; lia|]. exists v1, W2, r2. split; [reflexivity|].
      rewrite elements_snoc. exact Hv2.
    + split; [exact X|]. split; [exact Y|]. eapply step_maps; eauto.
  - (* close *)
    specialize (S (SVec k)). cbn [slot_ok] in S. rewrite Hk in S. cbn [at_slot] in S. rewrite Hp in S. cbn [vec_slot] in S.
    destruct S as (Sz & v & W & rest & Ev & Hv). rewrite Ev in R. cbn [with_some] in R.
    apply bind_ret in R as (x & w1 & R & R'). apply ret_pair in R' as (Ex & -> & ->).
    apply is_ok_true in Ex as [y ->].
    destruct (Wv r I) as [[_ So] Wst].
    assert (Ll : Z.of_nat (length (elements (tr_struct r) l)) = Z.of_nat (length l)) by (rewrite elements_length; reflexivity).
    destruct (ev_inv_bytes _ _ _ _ _ _ _ _ _ _ Hv) as (BW & Br & Lb). rewrite Ll in Lb.
    destruct (ev_close_cases b e st _ _ _ v w _ W rest _ _ w1 Hv M (schema_ok_like _ st _ eq_refl So) ltac:(lia) R)
      as (T & _ & M1 & [(_ & _ & [E|E] & _)|(B1 & B2 & F1 & F2 & C)]); [discriminate E|discriminate E|].
    assert (Lc : len ((zeros 8 ++ W) ++ rest) + 8 <= isize_max).
    { unfold len. rewrite !app_length, !Nat2Z.inj_add. change (Z.of_nat (length (zeros 8))) with 8. fold (len W) (len rest). lia. }
    destruct C as [(r' & E & C & _)|C]; [|lia]. injection E as <-.
    destruct (C y eq_refl Lc) as (C1 & C2 & C3 & C4). rewrite C2 in *.
    destruct Hv as (_ & _ & _ & (ms & Ems & G) & _).
    destruct (local_step (is_file st) a st A s (pl_vec k (VClosed l) A) (put_vec k None s) (SVec k) w w1 Wf Hs eq_refl eq_refl eq_refl) as [X Y].
    + same_slots.
    + eapply touches_mono; [|apply T]. intros c C0. exists (tr_name r). cbn [slot_names]. rewrite Hk. split; [left; auto|exact C0].
    + cbn [slot_ok]. rewrite Hk. cbn [at_slot pl_vec pl_vecs put_vec bs_vecs]. rewrite !nupd_same. cbn [vec_slot].
      exists (W ++ rest). split.
      * split; [split; [exact B1|]; split; [exact B2|]; split; [exact F1|exact F2]|].
        split; [apply bytes_ok_app; auto|]. unfold len. rewrite app_length, Nat2Z.inj_add. fold (len W) (len rest). lia.
      * rewrite Ems. split; [exists ms; split; [reflexivity|exact (goods_encodes _ _ _ G)]|apply goods_records; auto].
    + split; [exact X|]. split; [exact Y|]. exact M1.
  - (* start multi *)
    apply bind_ret in R as (x & w1 & R & R').
    destruct x as [v|x]; apply ret_pair in R' as (Ex & -> & ->); [|discriminate Ex].
    specialize (S (SMul k)). cbn [slot_ok] in S. rewrite Hk in S. cbn [at_slot] in S. rewrite Hp in S. destruct S as [[Fi _] [Fr _]].
    destruct (Wm r I) as (Wi & En & So & Wis & Wts & Sz). rewrite En in Fi.
    assert (Vn := identifier_valid _ Wi).
    destruct (create_mv_cases b e (mr_size r) (mr_bits r) (mr_types r) st (mr_name r) (mr_schema r) Vn w _ w1 (conj Fr Fi) R)
      as [T [(v' & E & Hv)|(_ & [F|F] & _)]].
    2:{ destruct F as [[kk F]|F]; discriminate F. }
    2:{ discriminate F. }
    injection E as <-.
    destruct (local_step (is_file st) a st A s (pl_mul k (MOpen []) A) (put_mul k (Some v) s) (SMul k) w w1 Wf Hs eq_refl eq_refl eq_refl) as [X Y].
    + same_slots.
    + eapply touches_mono; [|apply T]. intros c C. cbn [slot_names]. rewrite Hk. cbn [opt_list].
      destruct C as [C|C]; [exists (mr_name r)|exists (mr_index r); rewrite En]; split; simpl; auto.
    + cbn [slot_ok]. rewrite Hk. cbn [at_slot pl_mul pl_muls put_mul bs_muls]. rewrite !nupd_same. cbn [mul_slot buckets_size].
      split; [apply Z.pow_pos_nonneg; [lia|]; exact (index_bits_nonneg _ _ Wis)|].
      split; [discriminate|]. split; [cbn [length]; lia|]. exists v, []. split; [reflexivity|]. split; [reflexivity|]. exact Hv.
    + split; [exact X|]. split; [exact Y|]. eapply step_maps; eauto.
  - (* multi grow *)
    specialize (S (SMul k)). cbn [slot_ok] in S. rewrite Hk in S. cbn [at_slot] in S. rewrite Hp in S. cbn [mul_slot] in S.
    destruct S as (S1 & S2 & S3 & v & bs & Ev & Lb & Hv). rewrite Ev in R. cbn [with_some] in R.
    apply bind_ret in R as (x & w1 & R & R'). apply ret_pair in R' as (Ex & -> & ->).
    destruct x as [fl v1]. cbn [fst snd] in *. subst fl.
    destruct (Wm r I) as (Wi & En & So & Wis & Wts & Sz). assert (Vn := identifier_valid _ Wi).
    assert (Ll := mv_inv_length _ _ _ _ _ _ _ _ _ _ _ _ Hv). unfold buckets in Ll. rewrite map_length in Ll.
    rewrite buckets_size_snoc in *.
    destruct (mv_step_cases b e lim (mr_size r) (mr_bits r) (mr_types r) st (mr_name r) (mr_schema r) Wis Wts Vn
                items v w _ bs true _ w1 Hok Hv ltac:(lia) ltac:(lia) ltac:(rewrite <- Ll; lia) R)
      as [T [(v2 & bytes & E & Lby & Hv2)|(_ & _ & [(v2 & E & _)|[E _]])]]; [|discriminate E|discriminate E].
    injection E as <-.
    destruct (local_step (is_file st) a st A s (pl_mul k (MOpen (l ++ [items])) A) (put_mul k (Some v1) s) (SMul k) w w1 Wf Hs eq_refl eq_refl eq_refl) as [X Y].
    + same_slots.
    + eapply touches_mono; [|apply T]. intros c C. cbn [slot_names]. rewrite Hk. cbn [opt_list].
      destruct C as [C|C]; [exists (mr_name r)|exists (mr_index r); rewrite En]; split; simpl; auto.
    + cbn [slot_ok]. rewrite Hk. cbn [at_slot pl_mul pl_muls put_mul bs_muls]. rewrite !nupd_same. cbn [mul_slot].
      rewrite buckets_size_snoc. split; [lia|]. split; [lia|].
      split; [rewrite app_length, Nat2Z.inj_add; cbn [length]; lia|].
      exists v1, (bs ++ [bytes]). split; [reflexivity|]. split.
      * rewrite concat_app. unfold len. rewrite app_length, Nat2Z.inj_add. cbn [concat]. rewrite app_nil_r. fold (len (concat bs)) (len bytes). lia.
      * rewrite buckets_snoc. exact Hv2.
    + split; [exact X|]. split; [exact Y|]. eapply step_maps; eauto.
  - (* multi close *)
    specialize (S (SMul k)). cbn [slot_ok] in S. rewrite Hk in S. cbn [at_slot] in S. rewrite Hp in S. cbn [mul_slot] in S.
    destruct S as (S1 & S2 & S3 & v & bs & Ev & Lb & Hv). rewrite Ev in R. cbn [with_some] in R.
    apply bind_ret in R as (x & w1 & R & R'). apply ret_pair in R' as (Ex & -> & ->).
    apply is_ok_true in Ex as [[iv d] ->].
    destruct (Wm r I) as (Wi & En & So & Wis & Wts & Sz). assert (Vn := identifier_valid _ Wi).
    assert (Ll := mv_inv_length _ _ _ _ _ _ _ _ _ _ _ _ Hv). unfold buckets in Ll. rewrite map_length in Ll.
    destruct (mv_close_cases b e lim (mr_size r) (mr_bits r) (mr_types r) st (mr_name r) (mr_schema r) Wis Wts Vn
                v w _ bs true _ w1 Hv M (mv_schema_ok_like _ st _ eq_refl So) ltac:(lia) ltac:(lia) ltac:(rewrite <- Ll; lia) R)
      as (T & _ & M1 & [(_ & _ & [E|E] & _)|[[E _]|[[E _]|(r' & E & C & _)]]]); try discriminate E.
    injection E as <-. destruct (C iv d eq_refl) as (C1 & C2 & C3 & C4 & C5 & C6 & C7 & C8 & C9 & C10).
    destruct (local_step (is_file st) a st A s (pl_mul k (MClosed l) A) (put_mul k None s) (SMul k) w w1 Wf Hs eq_refl eq_refl eq_refl) as [X Y].
    + same_slots.
    + eapply touches_mono; [|apply T]. intros c C0. cbn [slot_names]. rewrite Hk. cbn [opt_list].
      destruct C0 as [C0|C0]; [exists (mr_name r)|exists (mr_index r); rewrite En]; split; simpl; auto.
    + cbn [slot_ok]. rewrite Hk. cbn [at_slot pl_mul pl_muls put_mul bs_muls]. rewrite !nupd_same. cbn [mul_slot].
      exists bs, (sl_bytes iv). split; [destruct Hv as (? & ? & ? & ? & ? & ? & _ & _ & _ & _ & _ & Hb & _); exact Hb|].
      split; [split; [exact C5|exact C4]|]. rewrite En. split.
      * split; [exact C10|]. apply sl_bytes_data; [exact C1|]. rewrite C3, <- Ll. lia.
      * split; [exact C9|]. rewrite <- C8. apply sl_bytes_data; [exact C6|].
        assert (Eb : len (sl_bytes d) = sl_len d) by (unfold sl_bytes; apply len_firstn; apply C6). rewrite C8 in Eb. lia.
    + split; [exact X|]. split; [exact Y|]. exact M1.
  - (* raw *)
    apply bind_ret in R as (x & w1 & R & R'). apply ret_pair in R' as (Ex & -> & ->).
    apply is_ok_true in Ex as [[] ->]. specialize (S (SRaw k)). cbn [slot_ok] in S. rewrite Hk in S. cbn [at_slot] in S.
    destruct (Wr r I) as [_ So]. rewrite Hp in S.
    eapply (write_slot _ b e a st A s _ (SRaw k)); eauto.
    + cbn [slot_names]. rewrite Hk. reflexivity.
    + eapply schema_ok_like; eauto.
    + same_slots.
    + intros K. cbn [slot_ok]. rewrite Hk. cbn [at_slot pl_raw pl_raws]. rewrite nupd_same. exact K.
  - (* new sub-archive *)
    apply bind_ret in R as (x & w1 & R & R').
    destruct x as [st'|x]; apply ret_pair in R' as (Ex & -> & ->); [|discriminate Ex].
    destruct st as [id base|id base]; [discriminate|].
    unfold sub_builder in R. apply bind_ret in R as (st2 & w2 & R & R').
    destruct (sub_valid _ _ _ Wf I) as [V Wx]. specialize (U k s0 Hk). unfold sub_sim in U. rewrite Hp in U. simpl in U.
    unfold subdir, file_new in R. injection R as <- <-.
    match type of R' with builder_new _ _ _ ?st ?wn = _ =>
      assert (Fn : frame (region st) w wn) by (apply (file_new_frame _ (path_join base (fst (fst s0))) w));
      assert (Mn : maps_ok wn)
    end.
    { intros i p L. simpl. unfold nupd. destruct (Nat.eqb i (w_next w)); [discriminate|]. apply M. }
    match type of R' with builder_new _ _ _ ?st ?wn = _ => assert (Un : unused_storage st wn) end.
    { split; [simpl; lia|]. simpl. split; [intros p; rewrite nupd_same; reflexivity|exact U]. }
    destruct (builder_new_ok true b e _ _ _ _ _ Wx (eq_refl : is_file (FileStorage _ _) = true) Mn Un R') as (-> & X & Y & Z).
    destruct (sub_step true a id base A s w w1 k s0 _ no_plan _ Wf Hs Hk (frame_trans _ _ _ _ Fn Y) X) as [P Q].
    split; [exact P|]. split; [exact Q|exact Z].
  - (* in a sub-archive *)
    specialize (U k s0 Hk). unfold sub_sim in U. rewrite Hp in U. destruct U as (Fs & id' & s1 & Es & H1).
    rewrite Es in R. cbn [with_some] in R.
    apply bind_ret in R as ([fl s2] & w1 & R & R'). apply ret_pair in R' as (Ex & -> & ->). cbn [fst snd] in *. subst fl.
    destruct (sub_valid _ _ _ Wf I) as [V Wx]. destruct st as [id base|id base]; [discriminate|].
    destruct (IH _ _ _ _ _ _ _ _ Wx (eq_refl : is_file (FileStorage _ _) = true) M H1 Hok R) as (X & Y & Z).
    destruct (sub_step true a id base A s w w1 k s0 _ _ _ Wf Hs Hk Y X) as [P Q].
    split; [exact P|]. split; [exact Q|exact Z].
Qed.
