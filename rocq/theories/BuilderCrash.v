(** What is left when a call on a builder fails or the process dies. *)
From Verif Require Import Base BaseFacts Codec CodecSpec CodecFacts Structs StructsSpec StructsFacts Views ViewsSpec ViewsFacts.
From Verif Require Import Storage PathFacts StorageSpec StorageFacts StorageMore StorageUse Writers WritersSpec HandleFacts EncodeFacts.
From Verif Require Import ElsewhereFacts ExtVecFacts ExtVecUse MultiViews MultiSpec MultiViewFacts MultiViewUse MultiVecFacts MultiVecUse.
From Verif Require Import Archives ArchiveSpec ArchiveFacts BuilderSpec BuilderFacts BuilderUse.
Local Open Scope list_scope.
Local Open Scope Z_scope.
Local Arguments firstn : simpl never.
Local Arguments skipn : simpl never.

(** * Unfoldings *)
Definition sub_left (A A' : plan) (x : archive) (k : nat) (s : string * adesc * bool) : Prop :=
  match nth k (ar_subs x) None with
  | Some x' => exists B', pl_subs A' k = Some B' /\ sufficient (snd (fst s)) B' /\
      left_plan (snd (fst s)) (match pl_subs A k with Some B => B | None => no_plan end) B' x'
  | None => forall B, pl_subs A k = Some B -> finished B -> ~ sufficient (snd (fst s)) B
  end.
Definition slot_left (a : adesc) (A A' : plan) (x : archive) (sl : slot) : Prop :=
  match sl with
  | SSig => True
  | SStruct k => at_slot (nth_error (ad_structs a) k) (fun r => left_bytes (pl_structs A k) (pl_structs A' k) (nth k (ar_structs x) None))
  | SVec k => at_slot (nth_error (ad_vectors a) k) (fun r => left_vec r (pl_vecs A k) (pl_vecs A' k) (nth k (ar_vectors x) None))
  | SMul k => at_slot (nth_error (ad_multis a) k) (fun r => left_mul r (pl_muls A k) (pl_muls A' k) (nth k (ar_multis x) (None, None)))
  | SRaw k => at_slot (nth_error (ad_raws a) k) (fun r => left_bytes (pl_raws A k) (pl_raws A' k) (nth k (ar_raws x) None))
  end.
Lemma at_slot_iff {R} (x : option R) P : at_slot x P <-> forall r, x = Some r -> P r.
Proof. destruct x; simpl; split; auto; intros; try discriminate; congruence. Qed.
Lemma left_eq a A A' x : left_plan a A A' x <->
  (forall sl, slot_left a A A' x sl) /\ (forall k s, nth_error (ad_subs a) k = Some s -> sub_left A A' x k s).
Proof.
  transitivity ((forall k r, nth_error (ad_structs a) k = Some r -> left_bytes (pl_structs A k) (pl_structs A' k) (nth k (ar_structs x) None)) /\
    (forall k r, nth_error (ad_vectors a) k = Some r -> left_vec r (pl_vecs A k) (pl_vecs A' k) (nth k (ar_vectors x) None)) /\
    (forall k r, nth_error (ad_multis a) k = Some r -> left_mul r (pl_muls A k) (pl_muls A' k) (nth k (ar_multis x) (None, None))) /\
    (forall k r, nth_error (ad_raws a) k = Some r -> left_bytes (pl_raws A k) (pl_raws A' k) (nth k (ar_raws x) None)) /\
    (forall k s, nth_error (ad_subs a) k = Some s -> sub_left A A' x k s)).
  - destruct a as [name schema ss vs ms rs subs].
    cbn [left_plan ad_name ad_schema ad_structs ad_vectors ad_multis ad_raws ad_subs].
    assert (E : forall l i, (fix go (k : nat) (l : list (string * adesc * bool)) : Prop :=
     match l with
     | [] => True
     | (_, a', _) :: l =>
         match nth k (ar_subs x) None with
         | Some x' => exists B', pl_subs A' k = Some B' /\ sufficient a' B' /\
             left_plan a' (match pl_subs A k with Some B => B | None => no_plan end) B' x'
         | None => forall B, pl_subs A k = Some B -> finished B -> ~ sufficient a' B
         end /\ go (S k) l
     end) i l <-> forall k s, nth_error l k = Some s -> sub_left A A' x (i + k) s).
    { intros l; induction l as [|[[n a'] o] l IH]; intros i.
      - split; [intros _ [|k] s H; discriminate H|auto].
      - rewrite IH. split.
        + intros [H H'] [|k] s Hk; cbn [nth_error] in Hk.
          * injection Hk as <-. rewrite Nat.add_0_r. exact H.
          * rewrite <- Nat.add_succ_comm. auto.
        + intros H. split.
          * specialize (H O _ eq_refl). rewrite Nat.add_0_r in H. exact H.
          * intros k s Hk. rewrite Nat.add_succ_comm. apply H. exact Hk. }
    rewrite E. tauto.
  - split.
    + intros (H1 & H2 & H3 & H4 & H5). split; [|exact H5]. intros [|k|k|k|k]; cbn [slot_left]; auto; apply at_slot_iff; eauto.
    + intros [H H5]. split; [|split; [|split; [|split; [|exact H5]]]]; intros k r Hk.
      * specialize (H (SStruct k)). cbn [slot_left] in H. rewrite at_slot_iff in H. eauto.
      * specialize (H (SVec k)). cbn [slot_left] in H. rewrite at_slot_iff in H. eauto.
      * specialize (H (SMul k)). cbn [slot_left] in H. rewrite at_slot_iff in H. eauto.
      * specialize (H (SRaw k)). cbn [slot_left] in H. rewrite at_slot_iff in H. eauto.
Qed.

(** What was complete is still there. *)
Definition slot_keeps (a : adesc) (A : plan) (p : place) (sl : slot) : Prop :=
  match sl with
  | SSig => sound p (signature_name (ad_name a)) (ad_schema a)
  | SStruct k => at_slot (nth_error (ad_structs a) k) (fun r => pl_structs A k <> None -> sound p (tr_name r) (tr_schema r))
  | SVec k => at_slot (nth_error (ad_vectors a) k) (fun r =>
      pl_vecs A k <> VUnset -> (forall l, pl_vecs A k <> VOpen l) -> sound p (tr_name r) (tr_schema r))
  | SMul k => at_slot (nth_error (ad_multis a) k) (fun r =>
      pl_muls A k <> MUnset -> (forall l, pl_muls A k <> MOpen l) ->
      sound p (mr_index r) (index_schema (mr_schema r)) /\ sound p (mr_name r) (mr_schema r))
  | SRaw k => at_slot (nth_error (ad_raws a) k) (fun r => pl_raws A k <> None -> sound p (rr_name r) (rr_schema r))
  end.
Lemma keeps_checks a A p : finished A -> sufficient a A -> (forall sl, slot_keeps a A p sl) ->
  (forall k s B, nth_error (ad_subs a) k = Some s -> pl_subs A k = Some B -> finished B -> sufficient (snd (fst s)) B ->
     checks (snd (fst s)) (sub_place p (fst (fst s)))) -> checks a p.
Proof.
  intros Fin Su K Ks. apply checks_eq. apply sufficient_eq in Su as (S1 & S2 & S3 & S4 & S5).
  inversion Fin as [A0 F1 F2 F3 E0]. subst A0. split; [exact (K SSig)|]. split; [|split; [|split]].
  - intros r I O. apply in_app_or in I as [I|I]; apply In_nth_error in I as [k Hk].
    + specialize (K (SStruct k)). cbn [slot_keeps] in K. rewrite at_slot_iff in K. eauto.
    + specialize (K (SVec k)). cbn [slot_keeps] in K. rewrite at_slot_iff in K. eauto.
  - intros r I O. apply In_nth_error in I as [k Hk]. specialize (K (SMul k)). cbn [slot_keeps] in K. rewrite at_slot_iff in K. eauto.
  - intros r I O. apply In_nth_error in I as [k Hk]. specialize (K (SRaw k)). cbn [slot_keeps] in K. rewrite at_slot_iff in K. eauto.
  - apply Forall_forall. intros s I O. apply In_nth_error in I as [k Hk]. specialize (S5 k s Hk O).
    destruct (pl_subs A k) as [B|] eqn:E; [|destruct S5]. eauto.
Qed.

(** What is seen has been started. *)
Lemma left_sufficient a A A' p x : opened true a p x -> left_plan a A A' x -> sufficient a A'.
Proof.
  intros H L. apply opened_eq in H as (_ & Xs & Xv & Xm & Xr & Xu). apply left_eq in L as [L Lu].
  apply sufficient_eq. split; [|split; [|split; [|split]]]; intros k r Hk O.
  - specialize (L (SStruct k)). cbn [slot_left] in L. rewrite at_slot_iff in L. specialize (L r Hk).
    apply (nth_error_Forall2 _ _ _ _ _ None Xs) in Hk as Hp. unfold typed_part, part, left_bytes in *.
    destruct (nth k (ar_structs x) None); [congruence|]. destruct Hp; congruence.
  - specialize (L (SVec k)). cbn [slot_left] in L. rewrite at_slot_iff in L. specialize (L r Hk).
    apply (nth_error_Forall2 _ _ _ _ _ None Xv) in Hk as Hp. unfold typed_part, part, left_vec, shows_vec in *.
    destruct (nth k (ar_vectors x) None); [|destruct Hp; congruence]. intros E. rewrite E in L. exact L.
  - specialize (L (SMul k)). cbn [slot_left] in L. rewrite at_slot_iff in L. specialize (L r Hk).
    apply (nth_error_Forall2 _ _ _ _ _ (None, None) Xm) in Hk as Hp. unfold multi_part, part, left_mul, shows_mul in *.
    destruct (nth k (ar_multis x) (None, None)) as [[i|] [d|]]; cbn [fst snd] in Hp; try (destruct Hp as [[? ?] ?]; congruence);
      try (destruct Hp as [? [? ?]]; congruence).
    intros E. rewrite E in L. destruct L as [L|(_ & L & _)]; [exact L|congruence].
  - specialize (L (SRaw k)). cbn [slot_left] in L. rewrite at_slot_iff in L. specialize (L r Hk).
    apply (nth_error_Forall2 _ _ _ _ _ None Xr) in Hk as Hp. unfold raw_part, part, left_bytes in *.
    destruct (nth k (ar_raws x) None); [congruence|]. destruct Hp; congruence.
  - specialize (Lu k r Hk). apply (nth_error_Forall2 _ _ _ _ _ None Xu) in Hk as Hp. unfold sub_left, sub_part in *.
    destruct (nth k (ar_subs x) None); [|destruct Hp; congruence]. destruct Lu as (B' & -> & Su & _). exact Su.
Qed.

Lemma fresh_open_sound b e a base w x : disk_ok w -> fresh_open b e a base w = Ret (Ok x) -> opened true a (PDisk base w) x.
Proof.
  intros D. change (fresh_open b e a base w) with (fst (open_archive b e a (FileStorage 0 base) (reader_world w))).
  destruct (open_archive b e a (FileStorage 0 base) (reader_world w)) as [o w'] eqn:E. cbn [fst]. intros ->.
  assert (Rd : everywhere readable a (PDisk base w)) by (apply everywhere_disk; intros; apply readable_disk; auto).
  destruct (does_open b e a _ _ Rd _ _ _ (represents_disk base w) E) as (_ & X). apply X. reflexivity.
Qed.

(** * What can be on disk *)
Section Disk.
Context (id : nat) (base : string).
Let st := FileStorage id base.

Lemma disk_holds w n schema d : holds (PDisk base w) n schema d ->
  exists pad, bytes_at (cell_at st n) w = Some (framed d pad) /\ len pad = 8.
Proof.
  intros (c & pad & F & -> & L & _). exists pad. split; [|exact L]. unfold found in F. unfold st. cbn [cell_at bytes_at].
  unfold res_key, res_path. cbn [st_base]. set (c := framed d pad) in *. clearbody c.
  destruct (w_files w (key_of (path_join base n))) as [[|y l]|]; congruence.
Qed.
Lemma disk_small w n c : disk_ok w -> bytes_at (cell_at st n) w = Some c -> stored_ok c.
Proof. intros D. cbn [st cell_at bytes_at]. apply D. Qed.
Lemma framed_small w n d pad : disk_ok w -> bytes_at (cell_at st n) w = Some (framed d pad) -> len d < 2 ^ 64.
Proof.
  intros D B. destruct (disk_small _ _ _ D B) as [_ L]. rewrite framed_len in L. pose proof (len_nonneg pad).
  unfold isize_max in L. lia.
Qed.
Lemma write_left w w' n sch schema data d : blank st n w -> data_ok data -> write_progress st n schema data w w' ->
  holds (PDisk base w') n sch d -> d = data.
Proof.
  intros (_ & B & _) Do P H. apply disk_holds in H as (pad & H & L). unfold write_progress in P.
  destruct P as [[P _]|[(p & q & E & P & _)|(p & q & _ & P & _)]].
  - congruence.
  - rewrite H in P. assert (Ep : p = framed d pad) by congruence. eapply (prefix_framed data p q d pad); eauto.
  - assert (Ep : resource_bytes data = framed d pad) by congruence.
    eapply (prefix_framed data (resource_bytes data) [] d pad); eauto. rewrite app_nil_r. reflexivity.
Qed.
Lemma create_left w w' n sch schema d : blank st n w -> create_progress st n schema w w' -> ~ holds (PDisk base w') n sch d.
Proof.
  intros (_ & B & _) P H. apply disk_holds in H as (pad & H & L). unfold create_progress in P.
  destruct P as [[P _]|(p & q & E & P & _)].
  - congruence.
  - assert (Ep : p = framed d pad) by congruence. apply (f_equal len) in E. rewrite len_app, Ep, framed_len in E.
    change (len (zeros 8)) with 8 in E. pose proof (len_nonneg q). pose proof (len_nonneg d). lia.
Qed.
Lemma unfinished_left w n sch schema D d : disk_ok w -> data_ok D -> unfinished st n schema D w ->
  holds (PDisk base w) n sch d -> d = D \/ d = [].
Proof.
  intros Dk Do (_ & c & B & _ & X) H. apply disk_holds in H as (pad & H & L). rewrite H in B.
  assert (Ec : c = framed d pad) by congruence. assert (Sm := framed_small _ _ _ _ Dk H).
  destruct X as [X|(c2 & p & q & Lo & Ep & Eq)].
  - right. rewrite Ec in X. eapply zero_header_data; eauto.
  - left. destruct Do as [_ Ld]. unfold isize_max in Ld. eapply (partial_header_data D c2 p q d pad); eauto; [lia|congruence].
Qed.
Lemma unsealed_left w n sch schema d : disk_ok w -> unsealed st n schema w -> holds (PDisk base w) n sch d -> d = [].
Proof.
  intros Dk U H. destruct (unfinished_left w n sch schema [] d Dk) as [E|E]; auto.
  - split; [constructor|discriminate].
  - apply unsealed_unfinished. exact U.
Qed.

(** The size header is never out of range. *)
Lemma disk_tame w n : (forall c, bytes_at (cell_at st n) w = Some c -> header c + 16 < 2 ^ 64) -> tame (PDisk base w) n.
Proof.
  intros H c F. apply H. simpl in F. unfold st. cbn [cell_at bytes_at]. unfold res_key, res_path. cbn [st_base].
  destruct (w_files w (key_of (path_join base n))) as [[|y l]|]; congruence.
Qed.
Lemma le_val_prefix p q : bytes_ok (p ++ q) -> 0 <= le_val p <= le_val (p ++ q).
Proof.
  intros B. apply bytes_ok_app in B as [Bp Bq]. rewrite le_val_app. assert (X := le_val_nonneg p Bp). assert (Y := le_val_nonneg q Bq).
  assert (0 <= 256 ^ Z.of_nat (length p)) by lia. nia.
Qed.
Lemma prefix_header p q : bytes_ok (p ++ q) -> header p <= header (p ++ q).
Proof.
  intros B. unfold header. rewrite firstn_app. apply le_val_prefix. rewrite <- firstn_app. apply bytes_ok_firstn. exact B.
Qed.
Lemma write_tame w w' n schema data : blank st n w -> data_ok data -> write_progress st n schema data w w' -> tame (PDisk base w') n.
Proof.
  intros (_ & B & _) Do P. apply disk_tame. intros c H. assert (Hh := resource_header data Do). assert (Ld := proj2 Do). unfold isize_max in Ld.
  assert (Bd : bytes_ok (resource_bytes data)) by (apply resource_bytes_ok; exact Do).
  unfold write_progress in P. destruct P as [[P _]|[(p & q & E & P & _)|(p & q & _ & P & _)]].
  - congruence.
  - assert (c = p) by congruence. subst c. rewrite E in Hh, Bd. assert (X := prefix_header p q Bd). lia.
  - assert (c = resource_bytes data) by congruence. subst c. lia.
Qed.
Lemma create_tame w w' n schema : blank st n w -> create_progress st n schema w w' -> tame (PDisk base w') n.
Proof.
  intros (_ & B & _) P. apply disk_tame. intros c H. unfold create_progress in P. destruct P as [[P _]|(p & q & E & P & _)].
  - congruence.
  - assert (c = p) by congruence. subst c. assert (X := prefix_header p q). rewrite <- E in X.
    specialize (X (bytes_ok_zeros 8)). change (header (zeros 8)) with 0 in X. lia.
Qed.
Lemma unfinished_tame w n schema D : data_ok D -> unfinished st n schema D w -> tame (PDisk base w) n.
Proof.
  intros Do (_ & c & B & _ & X). apply disk_tame. intros c' H. assert (c' = c) by congruence. subst c'.
  destruct Do as [_ Ld]. assert (Ln := len_nonneg D). unfold isize_max in Ld.
  destruct X as [X|(c2 & p & q & Lo & Ep & ->)].
  - unfold header. rewrite X. change (le_val (zeros 8)) with 0. lia.
  - rewrite (partial_header D c2 p q Lo Ep). assert (Y := le_val_prefix p q). rewrite <- Ep in Y.
    specialize (Y (le_bytes_ok 8 (len D))). rewrite le_val_bytes in Y.
    assert (M := Z.mod_pos_bound (len D) (256 ^ Z.of_nat 8) ltac:(reflexivity)).
    rewrite Z.mod_small in Y by (change (256 ^ Z.of_nat 8) with (2 ^ 64); lia). lia.
Qed.
Lemma unsealed_tame w n schema : unsealed st n schema w -> tame (PDisk base w) n.
Proof.
  intros U. apply (unfinished_tame w n schema []); [split; [constructor|discriminate]|]. apply unsealed_unfinished. exact U.
Qed.
Lemma blank_tame w n : blank st n w -> tame (PDisk base w) n.
Proof. intros (_ & B & _). apply disk_tame. congruence. Qed.

(** * A state between calls *)
Definition slot_tame (a : adesc) (p : place) (sl : slot) : Prop := forall n, In n (slot_names a sl) -> tame p n.
Lemma byte_left p opt n schema o o' y : (forall d, holds p n schema d -> o' = Some d) -> (forall d, o = Some d -> holds p n schema d) ->
  part true p opt n schema y -> left_bytes o o' y.
Proof.
  intros S C. unfold part, left_bytes. destruct y as [sl|].
  - intros [H _]. auto.
  - intros [_ H]. destruct o as [d|]; auto. destruct (H eq_refl d). auto.
Qed.
Lemma tells_left p opt n schema o y : tells p n schema o -> part true p opt n schema y -> left_bytes o o y.
Proof. intros T. apply byte_left; intros d H; apply (tells_holds _ _ _ _ _ T); exact H. Qed.

Lemma slot_tamed a A s w sl : wf_archive true a -> slot_ok a st A s sl w -> slot_tame a (PDisk base w) sl.
Proof.
  intros Wf S n In_. set (p := PDisk base w).
  assert (V : views p st w) by (right; exists id, base; split; reflexivity).
  assert (Ws := Wf). apply wf_eq in Ws. destruct Ws as (_ & Wsig & _ & Ws & Wv & Wm & Wr & _).
  rewrite Forall_forall in Ws, Wv, Wm, Wr.
  destruct sl as [|k|k|k|k]; cbn [slot_ok slot_names] in *.
  - destruct In_ as [<-|[]]. eapply tells_tame. eapply (kept_tells p st); [exact V|split; [exact S|split; [constructor|discriminate]]|exact Wsig].
  - destruct (nth_error (ad_structs a) k) as [r|] eqn:Hk; cbn [at_slot opt_list] in *; [|destruct In_]. destruct In_ as [<-|[]].
    destruct (Ws r (nth_error_In _ _ Hk)) as [_ So]. exact (tells_tame _ _ _ _ (byte_tells p st _ _ _ w V S So)).
  - destruct (nth_error (ad_vectors a) k) as [r|] eqn:Hk; cbn [at_slot opt_list] in *; [|destruct In_]. destruct In_ as [<-|[]].
    destruct (Wv r (nth_error_In _ _ Hk)) as [[_ So] _]. destruct (pl_vecs A k) as [|d|l|l] eqn:Ek.
    3:{ destruct S as (_ & v & W & rest & _ & Hv). eapply unsealed_tame, ev_inv_unsealed. exact Hv. }
    all: match type of S with vec_slot _ _ ?o _ _ => destruct (vec_tells p st r o _ w V S So ltac:(discriminate)) as (o' & T & _) end;
      exact (tells_tame _ _ _ _ T).
  - destruct (nth_error (ad_multis a) k) as [r|] eqn:Hk; cbn [at_slot opt_list] in *; [|destruct In_].
    destruct (Wm r (nth_error_In _ _ Hk)) as (_ & En & So & Wi & Wt & _). destruct (pl_muls A k) as [|l|l] eqn:Ek.
    2:{ destruct S as (_ & _ & _ & v & bs & _ & _ & Hv). apply mv_inv_unsealed in Hv as [U1 U2].
        rewrite <- En in U2. destruct In_ as [<-|[<-|[]]]; eapply unsealed_tame; eauto. }
    all: match type of S with mul_slot _ _ ?o _ _ =>
        destruct (mul_tells p st r o _ w V S Wi Wt So ltac:(discriminate)) as (o1 & o2 & T & T' & _) end;
        destruct In_ as [<-|[<-|[]]]; eapply tells_tame; eauto.
  - destruct (nth_error (ad_raws a) k) as [r|] eqn:Hk; cbn [at_slot opt_list] in *; [|destruct In_]. destruct In_ as [<-|[]].
    destruct (Wr r (nth_error_In _ _ Hk)) as [_ So]. exact (tells_tame _ _ _ _ (byte_tells p st _ _ _ w V S So)).
Qed.
Lemma slot_settled a A s w sl x : wf_archive true a -> disk_ok w -> slot_ok a st A s sl w ->
  (opened true a (PDisk base w) x -> slot_left a A A x sl) /\ slot_keeps a A (PDisk base w) sl.
Proof.
  intros Wf Dk S. set (p := PDisk base w).
  assert (V : views p st w) by (right; exists id, base; split; reflexivity).
  assert (Ws := Wf). apply wf_eq in Ws. destruct Ws as (_ & Wsig & _ & Ws & Wv & Wm & Wr & _).
  rewrite Forall_forall in Ws, Wv, Wm, Wr.
  destruct sl as [|k|k|k|k]; cbn [slot_ok slot_left slot_keeps] in *.
  - split; [auto|]. assert (T : tells p (signature_name (ad_name a)) (ad_schema a) (Some [])).
    { eapply (kept_tells p st); [exact V|split; [exact S|split; [constructor|discriminate]]|exact Wsig]. }
    apply (sound_tells _ _ _ _ T). discriminate.
  - destruct (nth_error (ad_structs a) k) as [r|] eqn:Hk; cbn [at_slot] in *; [|auto].
    destruct (Ws r (nth_error_In _ _ Hk)) as [_ So].
    assert (T := byte_tells p st _ _ _ w V S So). split.
    + intros Hx. apply opened_eq in Hx as (_ & Xs & _). apply (nth_error_Forall2 _ _ _ _ _ None Xs) in Hk as Hp. eapply tells_left; eauto.
    + apply (sound_tells _ _ _ _ T).
  - destruct (nth_error (ad_vectors a) k) as [r|] eqn:Hk; cbn [at_slot] in *; [|auto].
    destruct (Wv r (nth_error_In _ _ Hk)) as [[_ So] _].
    split.
    + intros Hx. apply opened_eq in Hx as (_ & _ & Xv & _). apply (nth_error_Forall2 _ _ _ _ _ None Xv) in Hk as Hp.
      destruct (pl_vecs A k) as [|d|l|l] eqn:Ek; unfold left_vec.
      * assert (T := byte_tells p st _ _ None w V S So). apply (part_tells _ _ _ _ _ _ T) in Hp.
        destruct (nth k (ar_vectors x) None); [discriminate|auto].
      * assert (T := byte_tells p st _ _ (Some d) w V S So). apply (part_tells _ _ _ _ _ _ T) in Hp.
        destruct (nth k (ar_vectors x) None); [|discriminate]. injection Hp. simpl. auto.
      * destruct S as (_ & v & W & rest & _ & Hv). destruct (nth k (ar_vectors x) None); [|eauto].
        destruct Hp as [Hp _]. eapply unsealed_left; [exact Dk|eapply ev_inv_unsealed; exact Hv|exact Hp].
      * destruct (vec_tells p st r (VClosed l) _ w V S So ltac:(discriminate)) as (o & T & _ & Sh).
        apply (part_tells _ _ _ _ _ _ T), Sh in Hp.
        destruct (nth k (ar_vectors x) None); [|destruct Hp]. left. exact Hp.
    + intros N1 N2. destruct (vec_tells p st r _ _ w V S So N2) as (o & T & E & _). apply (sound_tells _ _ _ _ T), E, N1.
  - destruct (nth_error (ad_multis a) k) as [r|] eqn:Hk; cbn [at_slot] in *; [|auto].
    destruct (Wm r (nth_error_In _ _ Hk)) as (_ & En & So & Wi & Wt & _).
    split.
    + intros Hx. apply opened_eq in Hx as (_ & _ & _ & Xm & _). apply (nth_error_Forall2 _ _ _ _ _ (None, None) Xm) in Hk as Hp.
      destruct (pl_muls A k) as [|l|l] eqn:Ek; unfold left_mul.
      2:{ right. split; [discriminate|]. destruct S as (_ & _ & _ & v & bs & _ & _ & Hv). apply mv_inv_unsealed in Hv as [U1 U2].
          rewrite <- En in U2. destruct Hp as [Hi Hd].
          destruct (nth k (ar_multis x) (None, None)) as [[i|] [d|]]; cbn [fst snd] in *; try discriminate; auto.
          split; [discriminate|]. left. destruct Hi as [Hi _]. eapply unsealed_left; eauto. }
      all: left; match type of S with mul_slot _ _ ?o _ _ =>
        destruct (mul_tells p st r o _ w V S Wi Wt So ltac:(discriminate)) as (o1 & o2 & T & T' & _ & _ & Sh) end;
        destruct Hp as [Hi Hd]; apply Sh; [eapply part_tells; eauto|eapply part_tells; eauto|];
        intros i d E; rewrite E in Hi, Hd; split; [apply Hi|apply Hd].
    + intros N1 N2. destruct (mul_tells p st r _ _ w V S Wi Wt So N2) as (o1 & o2 & T & T' & E & E' & _). split.
      * apply (sound_tells _ _ _ _ T), E, N1.
      * apply (sound_tells _ _ _ _ T'), E', N1.
  - destruct (nth_error (ad_raws a) k) as [r|] eqn:Hk; cbn [at_slot] in *; [|auto].
    destruct (Wr r (nth_error_In _ _ Hk)) as [_ So].
    assert (T := byte_tells p st _ _ _ w V S So). split.
    + intros Hx. apply opened_eq in Hx as (_ & _ & _ & _ & Xr & _). apply (nth_error_Forall2 _ _ _ _ _ None Xr) in Hk as Hp. eapply tells_left; eauto.
    + apply (sound_tells _ _ _ _ T).
Qed.
End Disk.

Definition settled (a : adesc) (A A' : plan) (p : place) : Prop :=
  (forall x, opened true a p x -> left_plan a A A' x) /\ (finished A -> sufficient a A -> checks a p) /\ everywhere tame a p.
Lemma slots_tame a p : (forall sl, slot_tame a p sl) -> Forall (tame p) (part_names a).
Proof.
  intros H. apply part_names_all. split; [apply (H SSig); left; reflexivity|]. rewrite !Forall_forall.
  split; [|split; [|split]]; intros r I; apply In_nth_ex in I as [k Hk].
  - apply (H (SStruct k)). cbn [slot_names]. rewrite Hk. left; reflexivity.
  - apply (H (SVec k)). cbn [slot_names]. rewrite Hk. left; reflexivity.
  - split; apply (H (SMul k)); cbn [slot_names]; rewrite Hk; simpl; auto.
  - apply (H (SRaw k)). cbn [slot_names]. rewrite Hk. left; reflexivity.
Qed.

(** Slots and sub-archives together. *)
Lemma settle a A A' base w : wf_archive true a -> disk_ok w -> let p := PDisk base w in
  (forall sl, (forall x, opened true a p x -> slot_left a A A' x sl) /\ slot_keeps a A p sl /\ slot_tame a p sl) ->
  (forall k s, nth_error (ad_subs a) k = Some s ->
     let p' := sub_place p (fst (fst s)) in
     everywhere tame (snd (fst s)) p' /\ (
     (pl_subs A k = None /\ pl_subs A' k = None /\ ~ checks (snd (fst s)) p') \/
     exists B', pl_subs A' k = Some B' /\
       (forall x, opened true (snd (fst s)) p' x ->
          left_plan (snd (fst s)) (match pl_subs A k with Some B => B | None => no_plan end) B' x) /\
       (forall B, pl_subs A k = Some B -> finished B -> sufficient (snd (fst s)) B -> checks (snd (fst s)) p'))) ->
  settled a A A' p.
Proof.
  intros Wf Dk p Sl Su'. assert (Su := fun k s H => proj2 (Su' k s H)). split; [|split].
  - intros x Hx. apply left_eq. split; [intros sl; apply Sl; exact Hx|]. intros k s Hk. specialize (Su k s Hk).
    apply opened_eq in Hx as (_ & _ & _ & _ & _ & Xu). apply (nth_error_Forall2 _ _ _ _ _ None Xu) in Hk as Hp.
    unfold sub_part, sub_left in *. destruct (nth k (ar_subs x) None) as [x'|].
    + destruct Su as [(_ & _ & N)|(B' & E' & S)]; [destruct N; eapply opened_checks; eauto|].
      destruct S as [S _]. exists B'. split; [exact E'|]. assert (L := S x' Hp). split; [eapply left_sufficient; eauto|exact L].
    + intros B E Fin Suf. rewrite E in Su. destruct Su as [(C & _)|(B' & _ & _ & S)]; [discriminate|].
      specialize (S B eq_refl Fin Suf). destruct Hp as [_ Hp].
      assert (Rd : everywhere readable (snd (fst s)) (sub_place p (fst (fst s)))).
      { apply everywhere_disk. intros. apply readable_disk. exact Dk. }
      destruct (proj1 (opened_dec _ _ Rd) S) as [x' Hx']. exact (Hp eq_refl x' Hx').
  - intros Fin Suf. apply (keeps_checks a A p Fin Suf); [intros sl; apply Sl|].
    intros k s B Hk E FinB SufB. specialize (Su k s Hk). rewrite E in Su.
    destruct Su as [(C & _)|(B' & _ & _ & S)]; [discriminate|]. eauto.
  - apply everywhere_eq. split; [apply slots_tame; apply Sl|]. apply Forall_forall. intros s I. apply In_nth_ex in I as [k Hk].
    apply (Su' k s Hk).
Qed.

Lemma sub_blank_void id base n w : sub_blank (FileStorage id base) n w -> void (PDisk (path_join base n) w).
Proof. intros H. right. eauto. Qed.

(** Sub-archives that were not touched. *)
Lemma sub_settled a id base A s w k x : wf_archive true a -> disk_ok w -> nth_error (ad_subs a) k = Some x ->
  (forall id base A s w, wf_archive true (snd (fst x)) -> disk_ok w -> sim (snd (fst x)) (FileStorage id base) A s w ->
     settled (snd (fst x)) A A (PDisk base w)) ->
  sub_sim (FileStorage id base) A s w k x ->
  let p' := sub_place (PDisk base w) (fst (fst x)) in
  (pl_subs A k = None /\ ~ checks (snd (fst x)) p' /\ everywhere tame (snd (fst x)) p') \/
  exists B, pl_subs A k = Some B /\ settled (snd (fst x)) B B p'.
Proof.
  intros Wf Dk Hk IH U. assert (I := nth_error_In _ _ Hk). destruct (sub_valid _ _ _ Wf I) as [V Wx].
  unfold sub_sim in U. destruct (pl_subs A k) as [B|] eqn:E.
  - right. exists B. split; [reflexivity|]. destruct U as (_ & id' & s' & _ & H). eapply IH; eauto.
  - left. split; [reflexivity|]. apply sub_blank_void in U. split; [eapply void_checks; [exact Wx|exact U]|].
    eapply void_everywhere; [|exact Wx|exact U]. intros q n T. eapply tells_tame; eauto.
Qed.
Lemma sim_settled a : forall id base A s w, wf_archive true a -> disk_ok w -> sim a (FileStorage id base) A s w ->
  settled a A A (PDisk base w).
Proof.
  induction a as [name schema ss vs ms rs subs IH] using adesc_deep_ind. intros id base A s w Wf Dk Hs.
  set (a := mkArchive name schema ss vs ms rs subs) in *. apply sim_eq in Hs as (_ & _ & S & U).
  apply settle; auto.
  - intros sl. split; [intros x; apply (slot_settled id base a A s w sl x Wf Dk (S sl))|].
    split; [apply (slot_settled id base a A s w sl (mkOpened [] [] [] [] []) Wf Dk (S sl))|].
    apply (slot_tamed id base a A s w sl Wf (S sl)).
  - intros k x Hk p'. rewrite Forall_forall in IH.
    destruct (sub_settled a id base A s w k x Wf Dk Hk (IH x (nth_error_In _ _ Hk)) (U k x Hk)) as [(E & N & Tm)|(B & E & H1 & H2 & Tm)]; (split; [exact Tm|]).
    + left. auto.
    + right. exists B. rewrite E. split; [reflexivity|]. split; [exact H1|]. intros B' EB. injection EB as <-. exact H2.
Qed.

(** * A call that does not work *)
Lemma local_left a id base A s A' sl0 w w' : let st := FileStorage id base in wf_archive true a -> sim a st A s w ->
  disk_ok w' -> pl_subs A' = pl_subs A ->
  (forall sl x, sl <> sl0 -> slot_left a A A x sl -> slot_left a A A' x sl) ->
  touches (fun c => exists n, In n (slot_names a sl0) /\ cells_of st n c) w w' ->
  (forall x, opened true a (PDisk base w') x -> slot_left a A A' x sl0) ->
  slot_keeps a A (PDisk base w') sl0 -> slot_tame a (PDisk base w') sl0 ->
  frame (region st) w w' /\ settled a A A' (PDisk base w').
Proof.
  intros st Wf Hs Dk E Same T L K Tm0. destruct (local_rest _ _ _ _ _ _ _ _ Wf Hs T) as (F & S & U).
  split; [exact F|]. apply settle; auto.
  - intros sl. destruct (slot_eq_dec sl sl0) as [->|D]; [auto|].
    split; [intros x Hx; apply Same; [exact D|]; apply (slot_settled id base a A s w' sl x Wf Dk (S sl D)); exact Hx|].
    split; [apply (slot_settled id base a A s w' sl (mkOpened [] [] [] [] []) Wf Dk (S sl D))|].
    apply (slot_tamed id base a A s w' sl Wf (S sl D)).
  - intros k x Hk p'. rewrite E.
    destruct (sub_settled a id base A s w' k x Wf Dk Hk (sim_settled _) (U k x Hk)) as [(EB & N & Tm)|(B & EB & H1 & H2 & Tm)]; (split; [exact Tm|]).
    + left. auto.
    + right. exists B. rewrite EB. split; [reflexivity|]. split; [exact H1|]. intros B' EB'. injection EB' as <-. exact H2.
Qed.
Lemma sub_left_step a id base A s w w' k x id' B' : let st := FileStorage id base in wf_archive true a -> sim a st A s w ->
  disk_ok w' -> nth_error (ad_subs a) k = Some x ->
  let base' := path_join base (fst (fst x)) in
  frame (region (FileStorage id' base')) w w' ->
  (forall y, opened true (snd (fst x)) (PDisk base' w') y ->
     left_plan (snd (fst x)) (match pl_subs A k with Some B => B | None => no_plan end) B' y) ->
  (forall B, pl_subs A k = Some B -> finished B -> sufficient (snd (fst x)) B -> checks (snd (fst x)) (PDisk base' w')) ->
  everywhere tame (snd (fst x)) (PDisk base' w') ->
  frame (region st) w w' /\ settled a A (pl_sub k (Some B') A) (PDisk base w').
Proof.
  intros st Wf Hs Dk Hk base' F L K Tm0. destruct (sub_rest _ _ _ _ _ _ _ _ _ _ _ Wf Hs Hk F) as (F' & S & U).
  split; [exact F'|]. apply settle; auto.
  - intros sl. split; [intros y Hy|].
    + assert (X : slot_left a A A y sl) by (apply (slot_settled id base a A s w' sl y Wf Dk (S sl)); exact Hy).
      destruct sl; exact X.
    + split; [apply (slot_settled id base a A s w' sl (mkOpened [] [] [] [] []) Wf Dk (S sl))|].
      apply (slot_tamed id base a A s w' sl Wf (S sl)).
  - intros k2 x2 Hk2 p'. unfold pl_sub. cbn [pl_subs]. destruct (Nat.eq_dec k2 k) as [->|D].
    + rewrite nupd_same. rewrite Hk in Hk2. injection Hk2 as <-. split; [exact Tm0|]. right. exists B'. auto.
    + rewrite nupd_other by exact D.
      destruct (sub_settled a id base A s w' k2 x2 Wf Dk Hk2 (sim_settled _) (U k2 x2 D Hk2)) as [(EB & N & Tm)|(B & EB & H1 & H2 & Tm)]; (split; [exact Tm|]).
      * left. auto.
      * right. exists B. rewrite EB. split; [reflexivity|]. split; [exact H1|]. intros B2 EB'. injection EB' as <-. exact H2.
Qed.

Lemma bind_any {A B} (m : M A) (f : A -> M B) w o w' : mbind m f w = (o, w') ->
  (exists x w1, m w = (Ret x, w1) /\ f x w1 = (o, w')) \/
  (exists o1, m w = (o1, w') /\ (forall x, o1 <> Ret x) /\ forall y, o <> Ret y).
Proof.
  unfold mbind. destruct (m w) as [[x| | |] w1]; intros H; [left; eauto| | |];
    right; injection H as <- <-; eexists; (split; [reflexivity|]); split; discriminate.
Qed.
Lemma bind_map {A B} (m : M A) (f : A -> B) w o w' : mbind m (fun x => mret (f x)) w = (o, w') ->
  exists o1, m w = (o1, w') /\ forall x, o1 = Ret x -> o = Ret (f x).
Proof.
  intros H. apply bind_any in H as [(x & w1 & H & R)|(o1 & H & N & _)].
  - injection R as <- <-. exists (Ret x). split; [exact H|]. intros y E. injection E as <-. reflexivity.
  - exists o1. split; [exact H|]. intros x E. destruct (N x E).
Qed.

Lemma builder_new_left b e a id base w o w' : wf_archive true a -> let st := FileStorage id base in unused_storage st w ->
  builder_new b e a st w = (o, w') -> disk_ok w' ->
  frame (region st) w w' /\ (forall x, opened true a (PDisk base w') x -> left_plan a no_plan no_plan x) /\
  everywhere tame a (PDisk base w').
Proof.
  intros Wf st [Hid Un] R Dk. cbn [st] in Un. assert (Wf' := Wf). apply wf_eq in Wf' as (Hi & Hs & _).
  set (n := signature_name (ad_name a)) in *. assert (Vn := signature_valid _ Hi). fold n in Vn.
  assert (Np : forall c, ~ @nothing c) by (intros c []).
  assert (Bl0 : forall m, valid_name m -> blank st m w).
  { intros m V. assert (V' := valid_schema m V). unfold blank, fresh_name. cbn [st] in *. simpl.
    destruct Un as [U1 U2]. rewrite !U1. rewrite !U2 by (apply (under_res id); auto). auto. }
  assert (T : touches (cells_of st n) w w' /\ tame (PDisk base w') n).
  { assert (C : exists o1, create_archive b e st (ad_name a) (ad_schema a) w = (o1, w')).
    { unfold builder_new, mtry in R. apply bind_any in R as [([[]|x] & w1 & R & R')|(o1 & R & _)]; [| |eauto];
        injection R' as <- <-; eauto. }
    destruct C as [o1 C]. unfold create_archive in C.
    assert (Ex : forall o w2, exists_ st (signature_name (ad_name a)) w = (o, w2) -> touches nothing w w2).
    { intros o0 w2 Rx. unfold exists_, path_exists in Rx. cbn [st] in Rx.
      assert (Sy : forall o w2, syscall (fun w => (Ret (Ok (on_disk (res_key st (signature_name (ad_name a))) w)), w)) w = (o, w2) -> touches nothing w w2).
      { intros o2 w3 Sx. unfold syscall, next_fault in Sx. destruct (w_faults w) as [|f fs]; [injection Sx as _ <-; apply touches_refl|].
        assert (w3 = set_faults fs w) by (destruct f; congruence). subst w3. apply touches_faults. }
      apply bind_any in Rx as [(r & w3 & Rx & Ry)|(o3 & Rx & _)]; [|eauto].
      assert (w2 = w3) by (destruct r; injection Ry; auto). subst w3. eauto. }
    assert (Tn : forall w2, touches nothing w w2 -> touches (cells_of st n) w w2 /\ blank st n w2).
    { intros w2 T0. split; [apply touches_nothing; exact T0|]. eapply blank_intact; [|apply Bl0; exact Vn].
      split; eapply touches_intact; eauto. }
    apply bind_any in C as [(ex & w2 & Rx & C)|(o2 & Rx & _)].
    - destruct (Tn _ (Ex _ _ Rx)) as [T0 B2].
      destruct ex; [injection C as _ <-; split; [exact T0|apply (blank_tame id); exact B2]|].
      assert (Wr : exists o3, write b e st n (ad_schema a) [] w2 = (o3, w')).
      { unfold mtry in C. apply bind_any in C as [([[]|x] & w3 & C & C')|(o2 & C & _)]; [injection C' as _ <-| |]; eauto.
        injection C' as _ <-. eauto. }
      destruct Wr as [o3 Wr]. split.
      + eapply touches_trans; [exact T0|]. apply (write_touches _ _ _ _ _ _ _ _ _ Wr).
      + assert (De : data_ok []) by (split; [constructor|discriminate]).
        destruct (fresh_start _ _ _ (proj1 (proj1 B2))) as [A1 A2]. destruct (fresh_start _ _ _ (proj2 (proj1 B2))) as [A3 A4].
        destruct (write_cases _ _ _ _ _ _ _ _ _ A1 A3 Wr) as [_ [(_ & X & _)|(_ & _ & _ & P)]].
        * rewrite A2, app_nil_l in X. apply (disk_tame id). intros c Hc. assert (c = resource_bytes []) by (unfold st in *; congruence). subst c. reflexivity.
        * eapply (write_tame id); eauto.
    - destruct (Tn _ (Ex _ _ Rx)) as [T0 B2]. split; [exact T0|apply (blank_tame id); exact B2]. }
  destruct T as [T Tsig].
  assert (F : frame (region st) w w').
  { eapply frame_mono; [|apply touches_frame; exact T]. intros c. apply region_cells. exact Vn. }
  split; [exact F|].
  assert (Bl : forall m, In m (part_names a) -> m <> n -> blank st m w').
  { intros m I D. assert (V := part_valid _ _ _ Wf I).
    destruct (unrelated_cells st n m Vn V) as [X Y].
    { eapply part_unrelated; eauto. left. reflexivity. }
    eapply (blank_intact st m w); [|apply Bl0; exact V].
    split; eapply touches_intact; try exact T; assumption. }
  assert (Vs : forall k s, nth_error (ad_subs a) k = Some s -> wf_archive true (snd (fst s)) /\ void (PDisk (path_join base (fst (fst s))) w')).
  { intros k s Hk. assert (I := nth_error_In _ _ Hk). destruct (sub_valid _ _ _ Wf I) as [V Wx]. split; [exact Wx|].
    apply (sub_blank_void id). intros k' U. destruct T as (_ & T & _). rewrite T.
    + apply (proj2 Un). eapply under_sub; eauto.
    + intros [C|C]; injection C as C.
      * exact (under_sub_res id base _ _ _ V Vn U C).
      * exact (under_sub_res id base _ _ _ V (valid_schema _ Vn) U C). }
  assert (Ns : forall sl m, sl <> SSig -> In m (slot_names a sl) -> blank st m w').
  { intros sl m D I. apply Bl; [eapply slot_part; eauto|]. intros ->.
    eapply (slots_disjoint a sl SSig n n); [apply wf_eq in Wf; tauto|exact D|exact I|left; reflexivity|reflexivity]. }
  split.
  2:{ apply everywhere_eq. split.
      - apply slots_tame. intros sl m I. destruct (slot_eq_dec sl SSig) as [->|D].
        + destruct I as [<-|[]]. exact Tsig.
        + apply (blank_tame id). eapply Ns; eauto.
      - apply Forall_forall. intros s I. apply In_nth_ex in I as [k Hk]. destruct (Vs k s Hk) as [Wx V].
        eapply void_everywhere; [|exact Wx|exact V]. intros q m Tm. eapply tells_tame; eauto. }
  intros x Hx. apply left_eq. split.
  - intros sl. destruct (slot_eq_dec sl SSig) as [->|D]; [exact I|].
    apply (slot_settled id base a no_plan (new_bstate st) w' sl x Wf Dk); [|exact Hx].
    destruct sl as [|k|k|k|k]; cbn [slot_ok no_plan new_bstate pl_structs pl_vecs pl_muls pl_raws].
    + destruct D. reflexivity.
    + destruct (nth_error (ad_structs a) k) eqn:E; simpl; auto. apply (Ns (SStruct k)); [discriminate|]. simpl. rewrite E. left; auto.
    + destruct (nth_error (ad_vectors a) k) eqn:E; simpl; auto. apply (Ns (SVec k)); [discriminate|]. simpl. rewrite E. left; auto.
    + destruct (nth_error (ad_multis a) k) eqn:E; simpl; auto. split; apply (Ns (SMul k)); try discriminate; simpl; rewrite E; simpl; auto.
    + destruct (nth_error (ad_raws a) k) eqn:E; simpl; auto. apply (Ns (SRaw k)); [discriminate|]. simpl. rewrite E. left; auto.
  - intros k s Hk. unfold sub_left. apply opened_eq in Hx as (_ & _ & _ & _ & _ & Xu).
    apply (nth_error_Forall2 _ _ _ _ _ None Xu) in Hk as Hp. unfold sub_part in Hp. simpl.
    destruct (nth k (ar_subs x) None) as [x'|]; [|discriminate].
    destruct (Vs k s Hk) as [Wx V]. exfalso. eapply (void_checks true (snd (fst s))); [exact Wx|exact V|]. eapply opened_checks; exact Hp.
Qed.

Ltac same_left := intros sl ? D H; destruct sl as [|j|j|j|j]; try exact H;
  cbn [slot_left pl_struct pl_vec pl_mul pl_raw pl_structs pl_vecs pl_muls pl_raws] in *;
  rewrite ?nupd_other by congruence; try exact H.
Lemma write_fails b e st n schema d w o w' : blank st n w -> write b e st n schema d w = (o, w') -> o <> Ret (Ok tt) ->
  touches (cells_of st n) w w' /\ write_progress st n schema d w w'.
Proof.
  intros ((U & V) & _) R N. destruct (fresh_start _ _ _ U) as [A1 _]. destruct (fresh_start _ _ _ V) as [B1 _].
  destruct (write_cases b e st n schema d w o w' A1 B1 R) as [(T & _) [(E & _)|(_ & _ & _ & P)]]; [congruence|]. auto.
Qed.
Lemma vec_part_left id base w r D l x o' : disk_ok w -> data_ok D -> unfinished (FileStorage id base) (tr_name r) (tr_schema r) D w ->
  array_of (tr_struct r) D (elements (tr_struct r) l) -> records (tr_struct r) D = elements (tr_struct r) l ->
  typed_part true (PDisk base w) r x -> o' = VClosed l -> left_vec r (VOpen l) o' x.
Proof.
  intros Dk Do U Ha Hr Hp ->. unfold left_vec. destruct x as [sl|]; [|eauto]. destruct Hp as [Hp _].
  destruct (unfinished_left id base _ _ _ _ _ _ Dk Do U Hp) as [E|E].
  - left. simpl. rewrite E. auto.
  - right. auto.
Qed.

Lemma loose_exact D : loose D (zeros 8 ++ D).
Proof.
  split; [reflexivity|]. split; [|auto]. unfold len. rewrite app_length, Nat2Z.inj_add. change (Z.of_nat (length (zeros 8))) with 8. lia.
Qed.
Lemma mul_part_left id base w r D D' l y o' : let st := FileStorage id base in disk_ok w -> mr_index r = index_name (mr_name r) ->
  data_ok D -> data_ok D' ->
  unfinished st (index_name (mr_name r)) (index_schema (mr_schema r)) D w -> unfinished st (mr_name r) (mr_schema r) D' w ->
  (forall i d, slice_ok i -> slice_ok d -> sl_bytes i = D -> sl_bytes d = D' -> shows_mul r o' (Some i, Some d)) ->
  multi_part true (PDisk base w) r y -> o' <> MUnset -> left_mul r (MOpen l) o' y.
Proof.
  intros st Dk En Do Do' Ui Ud Sh [Hi Hd] N. rewrite <- En in Ui. unfold left_mul.
  destruct y as [[i|] [d|]]; cbn [fst snd] in *; try (right; split; [discriminate|]; auto; fail).
  destruct Hi as (Hi & Oi & _), Hd as (Hd & Od & _).
  destruct (unfinished_left id base _ _ _ _ _ _ Dk Do Ui Hi) as [E|E]; [|right; split; [discriminate|]; auto].
  destruct (unfinished_left id base _ _ _ _ _ _ Dk Do' Ud Hd) as [E'|E']; [|right; split; [discriminate|]; auto].
  left. auto.
Qed.
Lemma mul_open_left id base w r o o' y : let st := FileStorage id base in disk_ok w -> mr_index r = index_name (mr_name r) ->
  unsealed st (index_name (mr_name r)) (index_schema (mr_schema r)) w ->
  multi_part true (PDisk base w) r y -> (forall l, o <> MClosed l) -> o' <> MUnset -> left_mul r o o' y.
Proof.
  intros st Dk En Ui [Hi Hd] N N'. rewrite <- En in Ui. right. split; [exact N|].
  destruct y as [[i|] [d|]]; cbn [fst snd] in *; auto. split; [exact N'|]. left. destruct Hi as [Hi _].
  eapply (unsealed_left id base); eauto.
Qed.

Lemma crash_left b e lim o : forall a id base A s w A' oc w', let st := FileStorage id base in
  wf_archive true a -> maps_ok w -> sim a st A s w -> may true a A o A' -> bstep b e lim a o s w = (oc, w') ->
  (forall s', oc <> Ret (true, s')) -> disk_ok w' ->
  frame (region st) w w' /\ settled a A A' (PDisk base w').
Proof.
  induction o as [k m|k v|k|k sets|k|k|k items|k|k d|k|k o IH]; intros a id base A s w A' oc w' st Wf M Hs Hm R No Dk;
    inversion Hm; subst; cbn [bstep] in R;
    assert (Est : bs_st s = st) by (apply sim_eq in Hs; tauto); rewrite ?Est in R;
    assert (Ws := Wf); apply wf_eq in Ws; destruct Ws as (_ & _ & _ & Ws & Wv & Wm & Wr & _ & Wu);
    rewrite Forall_forall in Ws, Wv, Wm, Wr, Wu;
    match goal with H : nth_error _ _ = Some _ |- _ => assert (I := nth_error_In _ _ H); rename H into Hk end;
    match goal with
    | H : pl_structs _ _ = _ |- _ => rename H into Hp
    | H : pl_vecs _ _ = _ |- _ => rename H into Hp
    | H : pl_muls _ _ = _ |- _ => rename H into Hp
    | H : pl_raws _ _ = _ |- _ => rename H into Hp
    | H : pl_subs _ _ = _ |- _ => rename H into Hp
    end;
    try match goal with
    | H : sets_ok _ _ |- _ => rename H into Hok
    | H : items_ok _ _ |- _ => rename H into Hok
    | H : may _ _ _ _ _ |- _ => match type of Hm with ?T => match type of H with T => fail 1 | _ => rename H into Hok end end
    end;
    rewrite ?Hk in R; cbn [with_some] in R;
    assert (S := Hs); apply sim_eq in S; destruct S as (_ & Hid & S & U).
  - (* struct *)
    apply bind_map in R as (o1 & R & Ro). specialize (S (SStruct k)). cbn [slot_ok] in S. rewrite Hk, Hp in S. cbn [at_slot byte_slot] in S.
    unfold set_struct in R. replace (_ <=? _) with true in R by (symmetry; apply Z.leb_le; assumption).
    set (dd := firstn (Z.to_nat (s_size (tr_struct r))) m) in *.
    assert (Do : data_ok dd).
    { split; [apply bytes_ok_firstn; assumption|]. unfold dd, len. rewrite firstn_length. unfold len in *.
      assert (16 <= isize_max) by discriminate. lia. }
    assert (N : o1 <> Ret (Ok tt)) by (intros ->; eapply No; rewrite (Ro _ eq_refl); reflexivity).
    destruct (write_fails _ _ _ _ _ _ _ _ _ S R N) as [T P].
    eapply (local_left a id base A s _ (SStruct k) w w' Wf Hs Dk); [reflexivity| | | | |].
    + same_left.
    + eapply touches_mono; [|exact T]. intros c C. exists (tr_name r). cbn [slot_names]. rewrite Hk. split; [left; auto|exact C].
    + intros x Hx. cbn [slot_left]. rewrite Hk. cbn [at_slot pl_struct pl_structs]. rewrite nupd_same, Hp.
      apply opened_eq in Hx as (_ & Xs & _). apply (nth_error_Forall2 _ _ _ _ _ None Xs) in Hk as Hx.
      unfold left_bytes. destruct (nth k (ar_structs x) None); [|reflexivity]. destruct Hx as [Hx _]. f_equal. symmetry.
      eapply (write_left id base); eauto.
    + cbn [slot_keeps]. rewrite Hk. cbn [at_slot]. congruence.
    + intros m0 In_. cbn [slot_names] in In_. rewrite Hk in In_. destruct In_ as [<-|[]]. eapply (write_tame id base); eauto.
  - (* vector *)
    apply bind_map in R as (o1 & R & Ro). specialize (S (SVec k)). cbn [slot_ok] in S. rewrite Hk, Hp in S. cbn [at_slot vec_slot] in S.
    unfold set_vector in R.
    assert (Do : data_ok (sl_bytes v)) by (apply sl_bytes_data; assumption).
    assert (N : o1 <> Ret (Ok tt)) by (intros ->; eapply No; rewrite (Ro _ eq_refl); reflexivity).
    destruct (write_fails _ _ _ _ _ _ _ _ _ S R N) as [T P].
    eapply (local_left a id base A s _ (SVec k) w w' Wf Hs Dk); [reflexivity| | | | |].
    + same_left.
    + eapply touches_mono; [|exact T]. intros c C. exists (tr_name r). cbn [slot_names]. rewrite Hk. split; [left; auto|exact C].
    + intros x Hx. cbn [slot_left]. rewrite Hk. cbn [at_slot pl_vec pl_vecs]. rewrite nupd_same, Hp.
      apply opened_eq in Hx as (_ & _ & Xv & _). apply (nth_error_Forall2 _ _ _ _ _ None Xv) in Hk as Hx.
      unfold left_vec. destruct (nth k (ar_vectors x) None); [|auto]. destruct Hx as [Hx _]. simpl.
      eapply (write_left id base); eauto.
    + cbn [slot_keeps]. rewrite Hk. cbn [at_slot]. congruence.
    + intros m0 In_. cbn [slot_names] in In_. rewrite Hk in In_. destruct In_ as [<-|[]]. eapply (write_tame id base); eauto.
  - (* start vector *)
    apply bind_map in R as (o1 & R & Ro). specialize (S (SVec k)). cbn [slot_ok] in S. rewrite Hk, Hp in S. cbn [at_slot vec_slot] in S.
    destruct (create_ev_cases b e st _ _ (tr_struct r) w _ w' (proj1 S) R) as [T [(v' & -> & _)|(_ & _ & _ & P)]].
    { edestruct No. exact (Ro _ eq_refl). }
    eapply (local_left a id base A s _ (SVec k) w w' Wf Hs Dk); [reflexivity| | | | |].
    + same_left.
    + eapply touches_mono; [|apply T]. intros c C. exists (tr_name r). cbn [slot_names]. rewrite Hk. split; [left; auto|exact C].
    + intros x Hx. cbn [slot_left]. rewrite Hk. cbn [at_slot pl_vec pl_vecs]. rewrite nupd_same, Hp.
      apply opened_eq in Hx as (_ & _ & Xv & _). apply (nth_error_Forall2 _ _ _ _ _ None Xv) in Hk as Hx.
      unfold left_vec. destruct (nth k (ar_vectors x) None); [|auto]. destruct Hx as [Hx _]. exfalso.
      eapply (create_left id base); eauto.
    + cbn [slot_keeps]. rewrite Hk. cbn [at_slot]. congruence.
    + intros m0 In_. cbn [slot_names] in In_. rewrite Hk in In_. destruct In_ as [<-|[]]. eapply (create_tame id base); eauto.
  - (* grow *)
    specialize (S (SVec k)). cbn [slot_ok] in S. rewrite Hk in S. cbn [at_slot] in S. rewrite Hp in S. cbn [vec_slot] in S.
    destruct S as (Sz & v & W & rest & Ev & Hv). rewrite Ev in R. cbn [with_some] in R.
    apply bind_map in R as (o1 & R & Ro).
    destruct (Wv r I) as [[_ So] Wst].
    assert (Ll : Z.of_nat (length (elements (tr_struct r) l)) = Z.of_nat (length l)) by (rewrite elements_length; reflexivity).
    destruct (ev_step_cases b e lim _ sets st _ _ v w _ W rest _ _ w' Wst Hok Hv ltac:(rewrite Ll; lia) R)
      as [T [(v2 & W2 & r2 & c2 & -> & _)|(_ & _ & X)]].
    { edestruct No. exact (Ro _ eq_refl). }
    assert (Us : unsealed st (tr_name r) (tr_schema r) w').
    { destruct X as [(v2 & c2 & _ & Hv2)|[_ Us]]; [eapply ev_inv_unsealed; exact Hv2|exact Us]. }
    eapply (local_left a id base A s _ (SVec k) w w' Wf Hs Dk); [reflexivity| | | | |].
    + same_left.
    + eapply touches_mono; [|apply T]. intros c <-. exists (tr_name r). cbn [slot_names]. rewrite Hk. split; [left; auto|left; auto].
    + intros x Hx. cbn [slot_left]. rewrite Hk. cbn [at_slot pl_vec pl_vecs]. rewrite nupd_same, Hp.
      apply opened_eq in Hx as (_ & _ & Xv & _). apply (nth_error_Forall2 _ _ _ _ _ None Xv) in Hk as Hx.
      unfold left_vec. destruct (nth k (ar_vectors x) None); [|eauto]. destruct Hx as [Hx _].
      eapply (unsealed_left id base); eauto.
    + cbn [slot_keeps]. rewrite Hk. cbn [at_slot]. congruence.
    + intros m0 In_. cbn [slot_names] in In_. rewrite Hk in In_. destruct In_ as [<-|[]]. eapply (unsealed_tame id base); eauto.
  - (* close *)
    specialize (S (SVec k)). cbn [slot_ok] in S. rewrite Hk in S. cbn [at_slot] in S. rewrite Hp in S. cbn [vec_slot] in S.
    destruct S as (Sz & v & W & rest & Ev & Hv). rewrite Ev in R. cbn [with_some] in R.
    apply bind_map in R as (o1 & R & Ro).
    destruct (Wv r I) as [[_ So] Wst].
    assert (Ll : Z.of_nat (length (elements (tr_struct r) l)) = Z.of_nat (length l)) by (rewrite elements_length; reflexivity).
    destruct (ev_inv_bytes _ _ _ _ _ _ _ _ _ _ Hv) as (BW & Br & Lb). rewrite Ll in Lb.
    assert (Do : data_ok (W ++ rest)).
    { split; [apply bytes_ok_app; auto|]. unfold len. rewrite app_length, Nat2Z.inj_add. fold (len W) (len rest). lia. }
    destruct (ev_close_cases b e st _ _ _ v w _ W rest _ _ w' Hv M (schema_ok_like _ st _ eq_refl So) ltac:(lia) R)
      as (T & _ & M1 & C).
    assert (Uf : unfinished st (tr_name r) (tr_schema r) (W ++ rest) w').
    { destruct C as [(_ & _ & _ & C)|(B1 & B2 & _)]; [exact C|]. eapply sealed_unfinished; [| |exact B1|exact B2].
      - rewrite <- app_assoc. apply loose_exact.
      - rewrite <- app_assoc. apply bytes_ok_app. split; [apply bytes_ok_zeros|apply Do]. }
    destruct Hv as (_ & _ & _ & (ms & Ems & G) & _).
    eapply (local_left a id base A s _ (SVec k) w w' Wf Hs Dk); [reflexivity| | | | |].
    + same_left.
    + eapply touches_mono; [|apply T]. intros c C0. exists (tr_name r). cbn [slot_names]. rewrite Hk. split; [left; auto|exact C0].
    + intros x Hx. cbn [slot_left]. rewrite Hk. cbn [at_slot pl_vec pl_vecs]. rewrite nupd_same, Hp.
      apply opened_eq in Hx as (_ & _ & Xv & _). apply (nth_error_Forall2 _ _ _ _ _ None Xv) in Hk as Hx.
      eapply (vec_part_left id base); eauto.
      * rewrite Ems. exists ms. split; [reflexivity|exact (goods_encodes _ _ _ G)].
      * rewrite Ems. apply goods_records; auto.
    + cbn [slot_keeps]. rewrite Hk. cbn [at_slot]. congruence.
    + intros m0 In_. cbn [slot_names] in In_. rewrite Hk in In_. destruct In_ as [<-|[]]. eapply (unfinished_tame id base); eauto.
  - (* start multi *)
    apply bind_map in R as (o1 & R & Ro). specialize (S (SMul k)). cbn [slot_ok] in S. rewrite Hk in S. cbn [at_slot] in S. rewrite Hp in S.
    destruct S as [Bi Bd]. destruct (Wm r I) as (Wi & En & So & Wis & Wts & Sz). rewrite En in Bi.
    assert (Vn := identifier_valid _ Wi).
    destruct (create_mv_cases b e (mr_size r) (mr_bits r) (mr_types r) st (mr_name r) (mr_schema r) Vn w _ w'
      (conj (proj1 Bd) (proj1 Bi)) R) as [T [(v' & -> & _)|(_ & _ & _ & P)]].
    { edestruct No. exact (Ro _ eq_refl). }
    assert (Tmi : tame (PDisk base w') (index_name (mr_name r))).
    { destruct P as [[P _]|[Us _]]; [eapply (create_tame id base); eauto|eapply (unsealed_tame id base); eauto]. }
    assert (Tmd : tame (PDisk base w') (mr_name r)).
    { destruct P as [[_ P]|[_ P]]; [|eapply (create_tame id base); eauto]. apply (blank_tame id base). eapply blank_intact; [|exact Bd].
      destruct (index_cells st (mr_name r) Vn) as ((NC1 & NC2) & _). split; eapply touches_intact; eauto. }
    eapply (local_left a id base A s _ (SMul k) w w' Wf Hs Dk); [reflexivity| | | | |].
    + same_left.
    + eapply touches_mono; [|apply T]. intros c C. cbn [slot_names]. rewrite Hk. cbn [opt_list].
      destruct C as [C|C]; [exists (mr_name r)|exists (mr_index r); rewrite En]; split; simpl; auto.
    + intros x Hx. cbn [slot_left]. rewrite Hk. cbn [at_slot pl_mul pl_muls]. rewrite nupd_same, Hp.
      apply opened_eq in Hx as (_ & _ & _ & Xm & _). apply (nth_error_Forall2 _ _ _ _ _ (None, None) Xm) in Hk as Hx.
      destruct P as [[P _]|[Us _]]; [|eapply (mul_open_left id base); eauto; discriminate].
      destruct Hx as [Hi Hd]. right. split; [discriminate|].
      destruct (nth k (ar_multis x) (None, None)) as [[i|] [d|]]; cbn [fst snd] in *; auto; try discriminate.
      destruct Hi as [Hi _]. rewrite En in Hi. exfalso. exact (create_left id base _ _ _ _ _ _ Bi P Hi).
    + cbn [slot_keeps]. rewrite Hk. cbn [at_slot]. congruence.
    + intros m0 In_. cbn [slot_names] in In_. rewrite Hk in In_. destruct In_ as [<-|[<-|[]]]; [rewrite En; exact Tmi|exact Tmd].
  - (* multi grow *)
    specialize (S (SMul k)). cbn [slot_ok] in S. rewrite Hk in S. cbn [at_slot] in S. rewrite Hp in S. cbn [mul_slot] in S.
    destruct S as (S1 & S2 & S3 & v & bs & Ev & Lb & Hv). rewrite Ev in R. cbn [with_some] in R.
    apply bind_map in R as (o1 & R & Ro).
    destruct (Wm r I) as (Wi & En & So & Wis & Wts & Sz). assert (Vn := identifier_valid _ Wi).
    assert (Ll := mv_inv_length _ _ _ _ _ _ _ _ _ _ _ _ Hv). unfold buckets in Ll. rewrite map_length in Ll.
    rewrite buckets_size_snoc in *.
    destruct (mv_step_cases b e lim (mr_size r) (mr_bits r) (mr_types r) st (mr_name r) (mr_schema r) Wis Wts Vn
                items v w _ bs true _ w' Hok Hv ltac:(lia) ltac:(lia) ltac:(rewrite <- Ll; lia) R)
      as [T [(v2 & bytes & -> & _)|(_ & _ & X)]].
    { edestruct No. exact (Ro _ eq_refl). }
    assert (Us : mv_unsealed st (mr_name r) (mr_schema r) w').
    { destruct X as [(v2 & _ & Hv2)|[_ Us]]; [apply mv_inv_unsealed in Hv2; exact Hv2|exact Us]. }
    destruct Us as [Us' Us].
    eapply (local_left a id base A s _ (SMul k) w w' Wf Hs Dk); [reflexivity| | | | |].
    + same_left.
    + eapply touches_mono; [|apply T]. intros c C. cbn [slot_names]. rewrite Hk. cbn [opt_list].
      destruct C as [C|C]; [exists (mr_name r)|exists (mr_index r); rewrite En]; split; simpl; auto.
    + intros x Hx. cbn [slot_left]. rewrite Hk. cbn [at_slot pl_mul pl_muls]. rewrite nupd_same, Hp.
      apply opened_eq in Hx as (_ & _ & _ & Xm & _). apply (nth_error_Forall2 _ _ _ _ _ (None, None) Xm) in Hk as Hx.
      eapply (mul_open_left id base); eauto; discriminate.
    + cbn [slot_keeps]. rewrite Hk. cbn [at_slot]. congruence.
    + intros m0 In_. cbn [slot_names] in In_. rewrite Hk in In_. destruct In_ as [<-|[<-|[]]]; [rewrite En; eapply (unsealed_tame id base); exact Us|eapply (unsealed_tame id base); exact Us'].
  - (* multi close *)
    specialize (S (SMul k)). cbn [slot_ok] in S. rewrite Hk in S. cbn [at_slot] in S. rewrite Hp in S. cbn [mul_slot] in S.
    destruct S as (S1 & S2 & S3 & v & bs & Ev & Lb & Hv). rewrite Ev in R. cbn [with_some] in R.
    apply bind_map in R as (o1 & R & Ro).
    destruct (Wm r I) as (Wi & En & So & Wis & Wts & Sz). assert (Vn := identifier_valid _ Wi).
    assert (Ll := mv_inv_length _ _ _ _ _ _ _ _ _ _ _ _ Hv). unfold buckets in Ll. rewrite map_length in Ll.
    assert (HB : len (concat bs) < 2 ^ mr_bits r) by lia.
    destruct (mv_close_cases b e lim (mr_size r) (mr_bits r) (mr_types r) st (mr_name r) (mr_schema r) Wis Wts Vn
                v w _ bs true _ w' Hv M (mv_schema_ok_like _ st _ eq_refl So) HB ltac:(lia) ltac:(rewrite <- Ll; lia) R)
      as (T & _ & M1 & C).
    assert (L : mv_left (mr_size r) (mr_bits r) st (mr_name r) (mr_schema r) bs w').
    { destruct C as [(_ & _ & _ & C)|[[E _]|[[E _]|([[iv d]|x] & -> & _ & C & _)]]]; try discriminate E; [exact C| |eauto].
      edestruct No. exact (Ro _ eq_refl). }
    destruct L as (Di & Ha & Ui & Ud).
    destruct (index_array b e (mr_size r) (mr_bits r) Wis _ Di (bounds_range _ _ HB) Ha) as (Re & Bi & Li).
    assert (DoI : data_ok Di).
    { split; [exact Bi|]. rewrite Li, app_length, bounds_length. cbn [length]. rewrite <- Ll, Nat2Z.inj_add. change (Z.of_nat 1) with 1. lia. }
    assert (Fb : Forall2 (bucket_of (mr_types r)) bs (buckets (mr_types r) l)).
    { destruct Hv as (? & ? & ? & ? & ? & ? & _ & _ & _ & _ & _ & Hb & _). exact Hb. }
    assert (DoD : data_ok (concat bs)) by (split; [eapply buckets_bytes; eauto|lia]).
    eapply (local_left a id base A s _ (SMul k) w w' Wf Hs Dk); [reflexivity| | | | |].
    + same_left.
    + eapply touches_mono; [|apply T]. intros c C0. cbn [slot_names]. rewrite Hk. cbn [opt_list].
      destruct C0 as [C0|C0]; [exists (mr_name r)|exists (mr_index r); rewrite En]; split; simpl; auto.
    + intros x Hx. cbn [slot_left]. rewrite Hk. cbn [at_slot pl_mul pl_muls]. rewrite nupd_same, Hp.
      apply opened_eq in Hx as (_ & _ & _ & Xm & _). apply (nth_error_Forall2 _ _ _ _ _ (None, None) Xm) in Hk as Hx.
      apply (mul_part_left id base w' r Di (concat bs)); auto; [|discriminate].
      intros i d Oi Od Ei Ed. cbn [shows_mul].
      eapply (parts_show (mr_size r) (mr_bits r) (mr_types r) bs); eauto. rewrite Ei. exact Re.
    + cbn [slot_keeps]. rewrite Hk. cbn [at_slot]. congruence.
    + intros m0 In_. cbn [slot_names] in In_. rewrite Hk in In_. destruct In_ as [<-|[<-|[]]]; [rewrite En; exact (unfinished_tame id base _ _ _ _ DoI Ui)|exact (unfinished_tame id base _ _ _ _ DoD Ud)].
  - (* raw *)
    apply bind_map in R as (o1 & R & Ro). specialize (S (SRaw k)). cbn [slot_ok] in S. rewrite Hk, Hp in S. cbn [at_slot byte_slot] in S.
    unfold set_raw in R.
    assert (N : o1 <> Ret (Ok tt)) by (intros ->; eapply No; rewrite (Ro _ eq_refl); reflexivity).
    destruct (write_fails _ _ _ _ _ _ _ _ _ S R N) as [T P].
    eapply (local_left a id base A s _ (SRaw k) w w' Wf Hs Dk); [reflexivity| | | | |].
    + same_left.
    + eapply touches_mono; [|exact T]. intros c C. exists (rr_name r). cbn [slot_names]. rewrite Hk. split; [left; auto|exact C].
    + intros x Hx. cbn [slot_left]. rewrite Hk. cbn [at_slot pl_raw pl_raws]. rewrite nupd_same, Hp.
      apply opened_eq in Hx as (_ & _ & _ & _ & Xr & _). apply (nth_error_Forall2 _ _ _ _ _ None Xr) in Hk as Hx.
      unfold left_bytes. destruct (nth k (ar_raws x) None); [|reflexivity]. destruct Hx as [Hx _]. f_equal. symmetry.
      eapply (write_left id base); eauto.
    + cbn [slot_keeps]. rewrite Hk. cbn [at_slot]. congruence.
    + intros m0 In_. cbn [slot_names] in In_. rewrite Hk in In_. destruct In_ as [<-|[]]. eapply (write_tame id base); eauto.
  - (* new sub-archive *)
    apply bind_map in R as (o1 & R & Ro).
    unfold sub_builder in R. destruct (sub_valid _ _ _ Wf I) as [V Wx]. specialize (U k s0 Hk). unfold sub_sim in U. rewrite Hp in U. simpl in U.
    apply bind_any in R as [(st2 & w2 & R & R')|(o2 & R & N & _)]; [|edestruct N; inversion R; reflexivity].
    unfold subdir, file_new in R. injection R as <- <-.
    match type of R' with builder_new _ _ _ ?st ?wn = _ =>
      assert (Fn : frame (region st) w wn) by (apply (file_new_frame _ (path_join base (fst (fst s0))) w));
      assert (Un : unused_storage st wn)
    end.
    { split; [simpl; lia|]. simpl. split; [intros p; rewrite nupd_same; reflexivity|exact U]. }
    destruct (builder_new_left b e _ _ _ _ _ _ Wx Un R' Dk) as (Y & Z & Tm).
    eapply (sub_left_step a id base A s w w' k s0 _ no_plan Wf Hs Dk Hk (frame_trans _ _ _ _ Fn Y)).
    + rewrite Hp. exact Z.
    + congruence.
    + exact Tm.
  - (* in a sub-archive *)
    specialize (U k s0 Hk). unfold sub_sim in U. rewrite Hp in U. destruct U as (Fs & id' & s1 & Es & H1).
    rewrite Es in R. cbn [with_some] in R.
    apply bind_map in R as (o1 & R & Ro).
    destruct (sub_valid _ _ _ Wf I) as [V Wx].
    assert (N : forall s', o1 <> Ret (true, s')) by (intros s' ->; edestruct No; exact (Ro _ eq_refl)).
    destruct (IH _ _ _ _ _ _ _ _ _ Wx M H1 Hok R N Dk) as (X & Y & Z & Tm).
    eapply (sub_left_step a id base A s w w' k s0 _ _ Wf Hs Dk Hk X).
    + rewrite Hp. exact Y.
    + intros B EB. rewrite Hp in EB. injection EB as <-. exact Z.
    + exact Tm.
Qed.

(** * A builder that stops *)
Lemma settled_open b e a A A' base w : disk_ok w -> settled a A A' (PDisk base w) ->
  exists r, fresh_open b e a base w = Ret r /\
    (forall x, r = Ok x -> sufficient a A' /\ left_plan a A A' x) /\
    (finished A -> sufficient a A -> exists x, r = Ok x).
Proof.
  intros Dk (L & C & T). destruct (fresh_open_exact b e a base w Dk (or_intror T)) as (r & E & X & Y).
  exists r. split; [exact E|]. split.
  - intros x Hx. specialize (Y x Hx). split; [eapply left_sufficient; eauto|auto].
  - intros F S. apply X. auto.
Qed.
Lemma build_stops b e b' e' lim a id base w st' w1 ops A flags s' w2 A' w3 : let st := FileStorage id base in
  wf_archive true a -> maps_ok w -> unused_storage st w ->
  builder_new b e a st w = (Ret (Ok st'), w1) ->
  history true a no_plan ops A ->
  brun b e lim a ops (new_bstate st') w1 = (Ret (flags, s'), w2) -> Forall (eq true) flags ->
  (A' = A /\ w3 = w2 \/
   exists o oc, may true a A o A' /\ bstep b e lim a o s' w2 = (oc, w3) /\ forall s'', oc <> Ret (true, s'')) ->
  disk_ok w3 ->
  exists r, fresh_open b' e' a base w3 = Ret r /\
    (forall x, r = Ok x -> sufficient a A' /\ left_plan a A A' x) /\
    (finished A -> sufficient a A -> exists x, r = Ok x).
Proof.
  intros st Wf M Un R Hh Rr Ht X Dk.
  destruct (builder_new_ok _ b e a st w st' w1 Wf eq_refl M Un R) as (-> & S1 & _ & M1).
  destruct (brun_ok _ b e lim a ops st _ _ _ _ _ _ _ Wf eq_refl M1 S1 Hh Rr Ht) as (S2 & _ & M2).
  apply settled_open; [exact Dk|]. destruct X as [[-> ->]|(o & oc & Hm & Rs & No)].
  - eapply sim_settled; eauto.
  - eapply (crash_left b e lim o a id base); eauto.
Qed.
Lemma new_stops b e b' e' a id base w o w1 : let st := FileStorage id base in
  wf_archive true a -> unused_storage st w -> builder_new b e a st w = (o, w1) -> disk_ok w1 ->
  exists r, fresh_open b' e' a base w1 = Ret r /\ forall x, r = Ok x -> sufficient a no_plan /\ left_plan a no_plan no_plan x.
Proof.
  intros st Wf Un R Dk. destruct (builder_new_left b e a id base w o w1 Wf Un R Dk) as (_ & L & T).
  destruct (fresh_open_exact b' e' a base w1 Dk (or_intror T)) as (r & E & X & Y).
  exists r. split; [exact E|]. intros x Hx. specialize (Y x Hx). split; [eapply left_sufficient; eauto|auto].
Qed.
