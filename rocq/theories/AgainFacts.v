(** Facts about repeated attempts to write vectors (C105). *)
From Verif Require Import Base BaseFacts Codec CodecSpec Structs StructsSpec Views ViewsSpec Storage PathFacts StorageSpec StorageFacts StorageMore StorageUse.
From Verif Require Import Writers WritersSpec HandleFacts ExtVecFacts ExtVecUse MultiViews MultiSpec MultiViewFacts MultiVecFacts MultiViewUse MultiVecUse Archives.
From Verif Require Import DirFacts RedoSpec RedoFacts AgainSpec.
Local Open Scope list_scope.
Local Open Scope Z_scope.

(** * Which files are changed *)
Definition in_keys (K : key -> Prop) (w w' : world) : Prop :=
  (forall k, ~ K k -> w_files w' k = w_files w k) /\ (forall x, w_dirs w x = true -> w_dirs w' x = true).
Lemma in_keys_same K w w' : w_files w' = w_files w -> w_dirs w' = w_dirs w -> in_keys K w w'.
Proof. intros F D. unfold in_keys. rewrite F, D. auto. Qed.
Lemma in_keys_trans K w1 w2 w3 : in_keys K w1 w2 -> in_keys K w2 w3 -> in_keys K w1 w3.
Proof. intros (A & B) (C & D). split; auto. intros k N. rewrite C, A; auto. Qed.

(** [m] changes no files but those in [K]; its result, if there is one, has [Q]. *)
Definition stays {A} (K : key -> Prop) (m : M A) (Q : A -> Prop) : Prop :=
  forall w, in_keys K w (snd (m w)) /\ forall a, fst (m w) = Ret a -> Q a.
Definition on (K : key -> Prop) (s : stream) : Prop := match s with SFile k _ => K k | SMem _ _ => True end.
Definition hon (K : key -> Prop) (h : handle) : Prop := match h_stream h with Some s => on K s | None => True end.
Definition von (K : key -> Prop) (v : ext_vec) : Prop := hon K (ev_handle v).
Definition mon (K : key -> Prop) (v : multi_vec) : Prop := von K (mv_index v) /\ hon K (mv_handle v).

Section Keys.
Variable K : key -> Prop.
Lemma stays_weaken {A} (m : M A) (P Q : A -> Prop) : (forall a, P a -> Q a) -> stays K m P -> stays K m Q.
Proof. intros I H w. destruct (H w). split; auto. Qed.
Lemma stays_ret {A} (x : A) (Q : A -> Prop) : Q x -> stays K (mret x) Q.
Proof. intros q w. split; [apply in_keys_same; reflexivity|]. cbn. intros a E. injection E as <-. exact q. Qed.
Lemma stays_lift {A} (x : outcome A) (Q : A -> Prop) : (forall a, x = Ret a -> Q a) -> stays K (lift x) Q.
Proof. intros q w. split; [apply in_keys_same; reflexivity|]. exact q. Qed.
Lemma stays_panic {A} (Q : A -> Prop) : stays K (@mpanic A) Q.
Proof. intros w. split; [apply in_keys_same; reflexivity|]. discriminate. Qed.
Lemma stays_bind {A B} (m : M A) (f : A -> M B) (P : A -> Prop) (Q : B -> Prop) :
  stays K m P -> (forall x, P x -> stays K (f x) Q) -> stays K (mbind m f) Q.
Proof.
  intros H F w. unfold mbind. destruct (H w) as (I & R). destruct (m w) as [[x| | |] w1]; cbn [fst snd] in *; try (split; [exact I|discriminate]).
  destruct (F x (R x eq_refl) w1) as (I2 & R2). split; [eapply in_keys_trans; eauto|exact R2].
Qed.
Definition good {A E} (P : A -> Prop) (r : result A E) : Prop := match r with Ok x => P x | Er _ => True end.
Definition both2 {A E B} (P : A -> Prop) (R : B -> Prop) (r : result A E * B) : Prop := good P (fst r) /\ R (snd r).
Lemma stays_try {A B E F} (c : E -> F) (m : M (result A E)) (f : A -> M (result B F)) (P : A -> Prop) (Q : B -> Prop) :
  stays K m (good P) -> (forall x, P x -> stays K (f x) (good Q)) -> stays K (mtry c m f) (good Q).
Proof. intros H G. apply (stays_bind _ _ (good P)); [exact H|]. intros [x|x] p; [apply G; exact p|apply stays_ret; exact I]. Qed.
Lemma stays_stry {B} (m : M (result unit io_kind * stream)) (f : stream -> M (result B io_kind)) (Q : B -> Prop) :
  stays K m (both2 (fun _ => True) (on K)) -> (forall s, on K s -> stays K (f s) (good Q)) -> stays K (stry m f) (good Q).
Proof. intros H G. apply (stays_bind _ _ _ _ H). intros [[x|x] s] (_ & p); [apply G; exact p|apply stays_ret; exact I]. Qed.
Lemma in_keys_fault w : in_keys K w (snd (next_fault w)).
Proof. unfold next_fault. destruct (w_faults w); apply in_keys_same; reflexivity. Qed.
Lemma stays_syscall {A} (m : M (result A io_kind)) (P : A -> Prop) : stays K m (good P) -> stays K (syscall m) (good P).
Proof.
  intros H w. unfold syscall. assert (F := in_keys_fault w). destruct (next_fault w) as [f w1]. cbn [snd] in F.
  destruct f; cbn [fst snd]; try (split; [exact F|]; intros a E; first [discriminate|injection E as <-; exact I]).
  destruct (H w1) as (I2 & R). split; [eapply in_keys_trans; eauto|exact R].
Qed.
Lemma stays_exists x : stays K (path_exists x) (fun _ => True).
Proof.
  apply (stays_bind _ _ (good (fun _ => True))).
  - apply stays_syscall. intros w. split; [apply in_keys_same; reflexivity|]. intros a _. destruct a; exact I.
  - intros [y|y] _; apply stays_ret; exact I.
Qed.
Lemma stays_write_all s d : on K s -> stays K (write_all s d) (both2 (fun _ => True) (on K)).
Proof.
  destruct s as [id x|x p]; intros O w; unfold write_all.
  - destruct (w_streams w id x) as [[c p]|]; (split; [apply in_keys_same; reflexivity|]); intros a E; cbn in E; [|discriminate].
    injection E as <-. split; exact I.
  - assert (W : forall q y u, in_keys K u (file_write x q y u)).
    { intros q y u. split; [|auto]. intros k N. cbn. unfold kupd. destruct (key_eqb k x) eqn:E; [|reflexivity].
      apply key_eqb_eq in E. subst k. destruct (N O). }
    destruct d as [|z d]; [split; [apply in_keys_same; reflexivity|]; intros a E; injection E as <-; split; [exact I|exact O]|].
    assert (F := in_keys_fault w). destruct (next_fault w) as [f w1]. cbn [snd] in F.
    destruct f; cbn [fst snd]; (split; [first [exact F|eapply in_keys_trans; [exact F|apply W]]|]);
      intros a E; first [discriminate|injection E as <-; split; [exact I|exact O]].
Qed.
Lemma stays_seek s : on K s -> stays K (seek_start s) (both2 (fun _ => True) (on K)).
Proof.
  destruct s as [id x|x p]; intros O; unfold seek_start.
  - intros w. destruct (w_streams w id x) as [[c p]|]; (split; [apply in_keys_same; reflexivity|]); intros a E; cbn in E; [|discriminate].
    injection E as <-. split; exact I.
  - apply (stays_bind _ _ (good (fun _ => True))); [apply stays_syscall, stays_ret; exact I|].
    intros [?|?] _; apply stays_ret; split; first [exact I|exact O].
Qed.
Lemma stays_size b e v s : on K s -> stays K (write_size b e v s) (both2 (fun _ => True) (on K)).
Proof. intros O. unfold write_size. apply (stays_bind _ _ (fun _ => True)); [apply stays_lift; auto|]. intros x _. apply stays_write_all. exact O. Qed.
Lemma stays_quiet {A} (m : M A) : (forall w, w_files (snd (m w)) = w_files w /\ w_dirs (snd (m w)) = w_dirs w) -> stays K m (fun _ => True).
Proof. intros H w. split; [|auto]. destruct (H w). apply in_keys_same; auto. Qed.
Lemma good_any {A E} (r : result A E) : good (fun _ => True) r.
Proof. destruct r; exact I. Qed.
Lemma stays_any {A E} (m : M (result A E)) : stays K m (fun _ => True) -> stays K m (good (fun _ => True)).
Proof. apply stays_weaken. intros a _. apply good_any. Qed.
Lemma stays_read b e st n x : stays K (read b e st n x) (fun _ => True).
Proof.
  assert (R : forall n, stays K (read_resource st n) (good (fun _ => True))).
  { intros m. destruct st as [id base|id base]; unfold read_resource.
    - apply stays_any, stays_quiet. intros w. destruct (w_resources w id _); [split; reflexivity|].
      destruct (w_streams w id _) as [[c p]|]; split; reflexivity.
    - apply (stays_bind _ _ _ _ (stays_exists _)). intros [|] _; [|apply stays_ret; exact I].
      intros w. unfold mmap_read. destruct (w_maps w id _).
      + split; [apply in_keys_same; reflexivity|]. intros a _. apply good_any.
      + apply stays_syscall. clear w. intros w. destruct (w_files w _); [|split; [apply in_keys_same; reflexivity|intros; apply good_any]].
        destruct (_ =? 0); (split; [apply in_keys_same; reflexivity|intros; apply good_any]). }
  apply (stays_weaken _ (good (fun _ => True))); [auto|]. apply (stays_try _ _ _ (fun _ => True)); [apply R|]. intros d _.
  apply (stays_try _ _ _ (fun _ => True)); [apply R|]. intros s _. apply stays_lift. intros. apply good_any.
Qed.
Lemma stays_dirs k : stays K (create_dir_all k) (good (fun _ => True)).
Proof.
  intros w. split; [|intros; apply good_any]. destruct (create_dir_all k w) as [o w'] eqn:E. apply create_dir_all_cases in E.
  destruct E as (((_ & F & _ & _ & G) & _) & _). split; [|exact G]. intros x _. apply F. intros [].
Qed.
Lemma stays_create id base n : K (res_key (FileStorage id base) n) -> stays K (create_output_stream (FileStorage id base) n) (good (on K)).
Proof.
  intros Hk. unfold create_output_stream. apply (stays_bind _ _ _ _ (stays_exists _)). intros x _.
  apply (stays_try _ _ _ (fun _ => True)).
  - destruct x; [apply stays_ret; exact I|apply stays_dirs].
  - intros _ _. unfold file_create. apply stays_syscall. intros w.
    destruct (is_dir _ w); [split; [apply in_keys_same; reflexivity|]; intros a E; injection E as <-; exact I|].
    destruct (is_dir _ w); cbn [fst snd]; [|split; [apply in_keys_same; reflexivity|]; intros a E; injection E as <-; exact I].
    split; [|intros a E; injection E as <-; exact Hk]. split; [|auto]. intros k N. cbn. unfold kupd.
    destruct (key_eqb k _) eqn:E; [|reflexivity]. apply key_eqb_eq in E. subst k. destruct (N Hk).
Qed.
Lemma stays_schema schema s : on K s -> stays K (write_schema schema s) (good (fun _ => True)).
Proof. intros O. unfold write_schema. apply stays_stry; [apply stays_write_all; exact O|]. intros s' _. apply stays_ret. exact I. Qed.
Lemma stays_handle b e id base n schema : K (res_key (FileStorage id base) n) -> K (res_key (FileStorage id base) (schema_name n)) ->
  stays K (create_handle b e (FileStorage id base) n schema) (good (hon K)).
Proof.
  intros K1 K2. unfold create_handle. apply (stays_try _ _ _ (on K)); [apply stays_create; exact K2|]. intros s O.
  apply (stays_try _ _ _ (fun _ => True)); [apply stays_schema; exact O|]. intros _ _.
  apply (stays_try _ _ _ (on K)); [apply stays_create; exact K1|]. intros s1 O1. unfold handle_try_new.
  apply stays_stry; [apply stays_size; exact O1|]. intros s2 O2. apply stays_ret. exact O2.
Qed.
Lemma stays_handle_write b h d : hon K h -> stays K (handle_write b h d) (both2 (fun _ => True) (hon K)).
Proof.
  intros H. unfold handle_write, hon in *. destruct (h_stream h) as [s|] eqn:E; [|apply stays_ret; split; [exact I|cbn [snd]; rewrite E; exact I]].
  apply (stays_bind _ _ _ _ (stays_write_all s d H)). intros [[x|x] s'] (_ & O); cbn [snd] in O.
  - apply (stays_bind _ _ (fun _ => True)); [apply stays_lift; auto|]. intros n _. apply stays_ret. split; [exact I|exact O].
  - apply stays_ret. split; [exact I|exact O].
Qed.
Lemma stays_handle_close b e h : hon K h -> stays K (handle_close b e h) (fun _ => True).
Proof.
  intros H. unfold handle_close, hon in *. destruct (h_stream h) as [s|]; [|apply stays_ret; exact I].
  apply (stays_bind _ _ _ _ (stays_write_all s _ H)). intros [[x|x] s1] (_ & O1); [|apply stays_ret; exact I].
  apply (stays_bind _ _ _ _ (stays_seek s1 O1)). intros [[y|y] s2] (_ & O2); [|apply stays_ret; exact I].
  apply (stays_bind _ _ _ _ (stays_size b e _ s2 O2)). intros [[z|z] s3] (_ & O3); [|apply stays_ret; exact I].
  apply (stays_bind _ _ _ _ (stays_read b e _ _ _)). intros d _. apply stays_ret. exact I.
Qed.
Lemma stays_drop c h : stays K (handle_drop c h) (fun _ => True).
Proof. unfold handle_drop. destruct (_ && _); [apply stays_panic|apply stays_ret; exact I]. Qed.
Ltac lifted := apply (stays_bind _ _ (fun _ => True)); [apply stays_lift; auto|]; let y := fresh "y" in intros y _.
Lemma stays_ev_flush b v : von K v -> stays K (ev_flush b v) (both2 (fun _ => True) (von K)).
Proof.
  intros H. unfold ev_flush. do 2 lifted. apply (stays_bind _ _ _ _ (stays_handle_write b _ _ H)).
  intros [[x|x] h] (_ & O); apply stays_ret; (split; [exact I|exact O]).
Qed.
Lemma stays_ev_grow b lim s v : von K v -> stays K (ev_grow b lim s v) (both2 (fun _ => True) (von K)).
Proof.
  intros H. unfold ev_grow. apply (stays_bind _ _ (both2 (fun _ => True) (von K))).
  { destruct (_ <? _); [apply stays_ev_flush; exact H|apply stays_ret; split; [exact I|exact H]]. }
  intros [[x|x] v'] (_ & O); [|apply stays_ret; split; [exact I|exact O]]. do 5 lifted. apply stays_ret. split; [exact I|exact O].
Qed.
Lemma stays_ev_set b e s sets p v : von K v -> stays K (ev_set b e s sets p v) (von K).
Proof. intros H. unfold ev_set. lifted. apply stays_ret. exact H. Qed.
Lemma stays_ev_run b e lim s sets : forall v, von K v -> stays K (ev_run b e lim s (map EGrow sets) v) (fun r => von K (snd r)).
Proof.
  induction sets as [|l sets IH]; intros v H; cbn [map ev_run]; [apply stays_ret; exact H|].
  apply (stays_bind _ _ (fun x => von K (snd x))).
  - cbn [ev_step]. apply (stays_bind _ _ _ _ (stays_ev_grow b lim s v H)). intros [[p|k] v'] (_ & O); [|apply stays_ret; exact O].
    apply (stays_bind _ _ _ _ (stays_ev_set b e s l p v' O)). intros v2 O2. apply stays_ret. exact O2.
  - intros x O. apply (stays_bind _ _ _ _ (IH _ O)). intros y O2. apply stays_ret. exact O2.
Qed.
Lemma stays_ev_close b e v : von K v -> stays K (ev_close b e v) (fun _ => True).
Proof.
  intros H. unfold ev_close. apply (stays_bind _ _ _ _ (stays_ev_flush b v H)). intros [[x|x] v'] (_ & O).
  - apply (stays_bind _ _ _ _ (stays_handle_close b e _ O)). intros r _. apply (stays_bind _ _ _ _ (stays_drop _ _)).
    intros _ _. apply stays_ret. exact I.
  - apply (stays_bind _ _ _ _ (stays_drop _ _)). intros _ _. apply stays_ret. exact I.
Qed.
Lemma stays_ev_create b e id base n schema : K (res_key (FileStorage id base) n) -> K (res_key (FileStorage id base) (schema_name n)) ->
  stays K (create_external_vector b e (FileStorage id base) n schema) (good (von K)).
Proof.
  intros K1 K2. unfold create_external_vector. apply (stays_try _ _ _ (hon K)); [apply stays_handle; auto|].
  intros h H. apply stays_ret. exact H.
Qed.
Lemma stays_ev_session b e lim s id base n schema sets :
  K (res_key (FileStorage id base) n) -> K (res_key (FileStorage id base) (schema_name n)) ->
  stays K (ev_session b e lim s (FileStorage id base) n schema (map EGrow sets)) (fun _ => True).
Proof.
  intros K1 K2. apply (stays_weaken _ (good (fun _ => True))); [auto|]. unfold ev_session.
  apply (stays_try _ _ _ (von K)); [apply stays_ev_create; auto|]. intros v H.
  apply (stays_bind _ _ _ _ (stays_ev_run b e lim s sets v H)). intros r O.
  apply (stays_bind _ _ _ _ (stays_ev_close b e _ O)). intros c _. apply stays_ret. exact I.
Qed.

Lemma stays_mv_flush b v : mon K v -> stays K (mv_flush b v) (both2 (fun _ => True) (mon K)).
Proof.
  intros (H1 & H2). unfold mv_flush. do 2 lifted. apply (stays_bind _ _ _ _ (stays_handle_write b _ _ H2)).
  intros [[x|x] h] (_ & O); [lifted|]; apply stays_ret; (split; [exact I|split; [exact H1|exact O]]).
Qed.
Lemma stays_mv_index b e lim size bits v : mon K v -> stays K (mv_add_to_index b e lim size bits v) (both2 (fun _ => True) (mon K)).
Proof.
  intros (H1 & H2). unfold mv_add_to_index. apply (stays_bind _ _ _ _ (stays_ev_grow b lim _ _ H1)).
  intros [[p|k] i] (_ & O); [|apply stays_ret; split; [exact I|split; [exact O|exact H2]]]. do 2 lifted.
  apply (stays_bind _ _ _ _ (stays_ev_set b e _ _ p i O)). intros i' O'. apply stays_ret. split; [exact I|split; [exact O'|exact H2]].
Qed.
Lemma stays_mv_run b e lim size bits ts items : forall v, mon K v ->
  stays K (mv_run b e lim size bits ts (map MGrow items) v) (fun r => mon K (snd r)).
Proof.
  induction items as [|l items IH]; intros v H; cbn [map mv_run]; [apply stays_ret; exact H|].
  apply (stays_bind _ _ (fun x => mon K (snd x))).
  - cbn [mv_step]. apply (stays_bind _ _ (both2 (fun _ => True) (mon K))).
    + unfold mv_grow. apply (stays_bind _ _ (both2 (fun _ => True) (mon K))).
      { destruct (_ <? _); [apply stays_mv_flush; exact H|apply stays_ret; split; [exact I|exact H]]. }
      intros [[x|x] v'] (_ & O); [apply stays_mv_index; exact O|apply stays_ret; split; [exact I|exact O]].
    + intros [[x|x] v'] (_ & O); [|apply stays_ret; exact O]. apply (stays_bind _ _ (mon K)).
      * unfold mv_add. lifted. apply stays_ret. exact O.
      * intros v2 O2. apply stays_ret. exact O2.
  - intros x O. apply (stays_bind _ _ _ _ (IH _ O)). intros y O2. apply stays_ret. exact O2.
Qed.
Lemma stays_mv_drop v : stays K (mv_drop v) (fun _ => True).
Proof. unfold mv_drop. destruct (_ || _); [apply stays_panic|apply stays_ret; exact I]. Qed.
Lemma stays_mv_close b e lim size bits v : mon K v -> stays K (mv_close b e lim size bits v) (fun _ => True).
Proof.
  intros H. unfold mv_close. apply (stays_bind _ _ _ _ (stays_mv_index b e lim size bits v H)). intros [[x|x] v1] (_ & O1).
  2:{ apply (stays_bind _ _ _ _ (stays_mv_drop _)). intros _ _. apply stays_ret. exact I. }
  apply (stays_bind _ _ _ _ (stays_mv_flush b v1 O1)). intros [[y|y] v2] (_ & (O2 & O3)).
  2:{ apply (stays_bind _ _ _ _ (stays_mv_drop _)). intros _ _. apply stays_ret. exact I. }
  apply (stays_bind _ _ _ _ (stays_ev_close b e _ O2)). intros [iv|k] _.
  2:{ apply (stays_bind _ _ _ _ (stays_drop _ _)). intros _ _. apply stays_ret. exact I. }
  apply (stays_bind _ _ _ _ (stays_handle_close b e _ O3)). intros r _.
  apply (stays_bind _ _ _ _ (stays_drop _ _)). intros _ _. destruct (fst r); apply stays_ret; exact I.
Qed.
Lemma stays_mv_session b e lim size bits ts id base n schema items :
  K (res_key (FileStorage id base) n) -> K (res_key (FileStorage id base) (schema_name n)) ->
  K (res_key (FileStorage id base) (index_name n)) -> K (res_key (FileStorage id base) (schema_name (index_name n))) ->
  stays K (mv_session b e lim size bits ts (FileStorage id base) n schema (map MGrow items)) (fun _ => True).
Proof.
  intros K1 K2 K3 K4. apply (stays_weaken _ (good (fun _ => True))); [auto|]. unfold mv_session.
  apply (stays_try _ _ _ (mon K)).
  - unfold create_multi_vector. apply (stays_try _ _ _ (von K)); [apply stays_ev_create; auto|]. intros i Hi.
    apply (stays_bind _ _ _ _ (stays_handle b e id base n schema K1 K2)). intros [h|k] Hh.
    + apply stays_ret. split; [exact Hi|exact Hh].
    + apply (stays_bind _ _ _ _ (stays_drop _ _)). intros _ _. apply stays_ret. exact I.
  - intros v H. apply (stays_bind _ _ _ _ (stays_mv_run b e lim size bits ts items v H)). intros r O.
    apply (stays_bind _ _ _ _ (stays_mv_close b e lim size bits _ O)). intros c _. apply stays_ret. exact I.
Qed.
End Keys.

(** * Which directories are made *)
Section Dirs.
Variables (b : build) (e : endian) (lim : Z) (id : nat) (base : string).
Let st := FileStorage id base.
Lemma within_ev_session s n schema sets : DirFacts.within (key_of base) (ev_session b e lim s st n schema (map EGrow sets)).
Proof.
  unfold ev_session. apply within_try; [apply within_create_ev; reflexivity|]. intros v. apply within_bind.
  - revert v. induction sets as [|l sets IH]; intros v; cbn [map ev_run]; [apply within_ret|].
    apply within_bind; [apply within_ev_step|]. intros x. apply within_bind; [apply IH|]. intros y. apply within_ret.
  - intros r. apply within_bind; [apply within_ev_close|]. intros c. apply within_ret.
Qed.
Lemma within_mv_session size bits ts n schema items :
  DirFacts.within (key_of base) (mv_session b e lim size bits ts st n schema (map MGrow items)).
Proof.
  unfold mv_session. apply within_try; [apply within_create_mv; reflexivity|]. intros v. apply within_bind.
  - revert v. induction items as [|l items IH]; intros v; cbn [map mv_run]; [apply within_ret|].
    apply within_bind; [apply within_mv_step|]. intros x. apply within_bind; [apply IH|]. intros y. apply within_ret.
  - intros r. apply within_bind; [apply within_mv_close|]. intros c. apply within_ret.
Qed.
End Dirs.

(** * What attempts leave alone *)
Definition among (base : string) (ns : list string) (k : key) : Prop := exists n, In n ns /\ k = file_of base n.
Definition spared (base : string) (ns : list string) (w w' : world) : Prop :=
  (forall k, ~ among base ns k -> w_files w' k = w_files w k) /\
  (forall x, is_dir x w = true -> is_dir x w' = true) /\
  (forall x, is_dir x w' = true -> is_dir x w = true \/ is_prefix_of x (key_of base) = true) /\
  (closed (key_of base) w -> closed (key_of base) w').
Lemma spared_disk base ns w w' : same_disk w w' -> spared base ns w w'.
Proof. intros (F & D). unfold spared, closed, is_dir. rewrite F, D. auto 6. Qed.
Lemma spared_trans base ns w1 w2 w3 : spared base ns w1 w2 -> spared base ns w2 w3 -> spared base ns w1 w3.
Proof.
  intros (A1 & A3 & A4 & A5) (B1 & B3 & B4 & B5). repeat split; auto.
  - intros k N. rewrite B1, A1; auto.
  - intros x H. destruct (B4 x H) as [H'|]; auto.
Qed.
Lemma stays_spared {A} base ns (m : M A) Q fs w o w' : stays (among base ns) m Q -> DirFacts.within (key_of base) m ->
  m (set_faults fs w) = (o, w') -> spared base ns w w'.
Proof.
  intros S W R. destruct (S (set_faults fs w)) as ((F & G) & _). destruct (W (set_faults fs w)) as (D & C). rewrite R in *. cbn [snd] in *.
  split; [exact F|]. split; [|split; [|exact C]].
  - intros x. unfold is_dir. destruct (w_dirs w x) eqn:E; [rewrite (G x E); auto|]. cbn. intros ->. apply orb_true_r.
  - intros x. unfold is_dir. destruct (w_dirs w' x) eqn:E; [destruct (D x E) as [H|]; auto; left; cbn in H; rewrite H; reflexivity|].
    cbn. intros ->. left. apply orb_true_r.
Qed.
Definition vector_files (name : string) : list string := [name; schema_name name].
Definition multi_files (name : string) : list string := [name; schema_name name; index_name name; schema_name (index_name name)].
Lemma ev_session_spared b e lim s id base name schema sets fs w o w' :
  ev_session b e lim s (FileStorage id base) name schema (map EGrow sets) (set_faults fs w) = (o, w') -> spared base (vector_files name) w w'.
Proof.
  apply (stays_spared _ _ _ (fun _ => True)); [|apply within_ev_session].
  apply stays_ev_session; eexists; (split; [|apply file_of_any]); cbn; auto.
Qed.
Lemma mv_session_spared b e lim size bits ts id base name schema items fs w o w' :
  mv_session b e lim size bits ts (FileStorage id base) name schema (map MGrow items) (set_faults fs w) = (o, w') ->
  spared base (multi_files name) w w'.
Proof.
  apply (stays_spared _ _ _ (fun _ => True)); [|apply within_mv_session].
  apply stays_mv_session; eexists; (split; [|apply file_of_any]); cbn; auto.
Qed.
Lemma tried_vector_spared base name w w' : tried_vector base name w w' -> spared base (vector_files name) w w'.
Proof.
  induction 1 as [w1 H|w1 fs b e lim s id schema sets o w2 w3 T IH R H]; [apply spared_disk; exact H|].
  eapply spared_trans; [exact IH|]. eapply spared_trans; [eapply ev_session_spared; exact R|apply spared_disk; exact H].
Qed.
Lemma tried_multi_spared base name w w' : tried_multi base name w w' -> spared base (multi_files name) w w'.
Proof.
  induction 1 as [w1 H|w1 fs b e lim size bits ts id schema items o w2 w3 T IH R H]; [apply spared_disk; exact H|].
  eapply spared_trans; [exact IH|]. eapply spared_trans; [eapply mv_session_spared; exact R|apply spared_disk; exact H].
Qed.

Lemma spared_free base ns n w w' : Forall valid_name ns -> valid_name n -> spared base ns w w' -> free_place base n w -> free_place base n w'.
Proof.
  intros Vs V (F & G & D & _) (A & B & C). rewrite Forall_forall in Vs.
  assert (X : forall n, valid_name n -> is_dir (file_of base n) w = false -> is_dir (file_of base n) w' = false).
  { intros m Vm H. destruct (is_dir (file_of base m) w') eqn:E; [|reflexivity].
    destruct (D _ E) as [H'|P]; [congruence|]. rewrite not_prefix in P by exact Vm. discriminate. }
  split; [auto|]. split; [auto using valid_schema|]. destruct C as [C|C]; [left; auto|right]. intros m. rewrite F; [apply C|].
  intros (x & Hx & E). eapply (not_above base x m); eauto.
Qed.
Lemma vector_files_valid name : valid_name name -> Forall valid_name (vector_files name).
Proof. intros V. unfold vector_files. rewrite !Forall_cons_iff. auto using valid_schema. Qed.
Lemma multi_files_valid name : valid_name name -> Forall valid_name (multi_files name).
Proof. intros V. assert (W := valid_index name V). unfold multi_files. rewrite !Forall_cons_iff. auto 9 using valid_schema. Qed.

(** The directory is there when a stream was made. *)
Lemma handle_made b e id base name schema w h w' : create_handle b e (FileStorage id base) name schema w = (Ret (Ok h), w') ->
  w_faults w = [] -> valid_name name -> free_place base name w -> is_dir (key_of base) w' = true.
Proof.
  intros R Hf V P. destruct (free_ready id base name w V P) as (_ & R2). assert (Vs := valid_schema name V).
  unfold create_handle, mtry, mbind in R.
  destruct (create_output_stream (FileStorage id base) (schema_name name) w) as [o1 w1] eqn:E1.
  assert (E2 := create_output_stream_cases _ _ _ _ _ E1). destruct E2 as [(s & -> & Cs & _ & _ & X)|(_ & _ & _ & [(k & ->)| ->] & _)]; [|discriminate R|discriminate R].
  destruct (X Hf _ R2) as (_ & D). specialize (D eq_refl). cbn [st_base] in D.
  set (Kn := fun k => k = res_key (FileStorage id base) name \/ k = res_key (FileStorage id base) (schema_name name)).
  assert (S : stays Kn (mtry (fun k => k) (write_schema schema s) (fun _ => mtry (fun k => k) (create_output_stream (FileStorage id base) name) (handle_try_new b e (FileStorage id base) name schema))) (good (hon Kn))).
  { apply (stays_try _ _ _ _ (fun _ => True)); [apply stays_schema|].
    - destruct s as [?|k p]; [exact I|]. right. cbn in Cs. injection Cs as ->. reflexivity.
    - intros _ _. apply (stays_try _ _ _ _ (on Kn)); [apply stays_create; left; reflexivity|]. intros s1 O1. unfold handle_try_new.
      apply stays_stry; [apply stays_size; exact O1|]. intros s2 O2. apply stays_ret. exact O2. }
  destruct (S w1) as ((_ & G) & _). unfold mtry, mbind in G. rewrite R in G. cbn [snd] in G.
  unfold is_dir in *. destruct (w_dirs w1 (key_of base)) eqn:E; [rewrite (G _ E); reflexivity|]. rewrite orb_false_l in D. rewrite D. apply orb_true_r.
Qed.

Lemma is_dir_more K w w' x : in_keys K w w' -> is_dir x w = true -> is_dir x w' = true.
Proof.
  intros (_ & G). unfold is_dir. destruct (w_dirs w x) eqn:E; [rewrite (G x E); auto|]. rewrite orb_false_l. intros ->. apply orb_true_r.
Qed.
Lemma stays_run {A} K (m : M A) Q w o w' : stays K m Q -> m w = (o, w') -> in_keys K w w'.
Proof. intros S R. destruct (S w) as (I & _). rewrite R in I. exact I. Qed.
Lemma dirs_added base ns w w' : spared base ns w w' -> closed (key_of base) w -> is_dir (key_of base) w' = true ->
  forall x, is_dir x w' = is_dir x w || is_prefix_of x (key_of base).
Proof.
  intros (_ & K2 & K3 & K4) Cl D x. destruct (is_dir x w') eqn:E.
  - destruct (K3 x E) as [-> | ->]; auto using orb_true_r.
  - destruct (is_dir x w) eqn:E1; [rewrite (K2 x E1) in E; discriminate|].
    destruct (is_prefix_of x (key_of base)) eqn:E2; [|reflexivity]. rewrite (K4 Cl D x E2) in E. discriminate.
Qed.
Lemma dirs_twice base ns w w1 w2 : spared base ns w w1 -> (forall x, is_dir x w2 = is_dir x w1 || is_prefix_of x (key_of base)) ->
  forall x, is_dir x w2 = is_dir x w || is_prefix_of x (key_of base).
Proof.
  intros (_ & K2 & K3 & _) D x. rewrite D. destruct (is_dir x w1) eqn:E.
  - destruct (K3 x E) as [-> | ->]; auto using orb_true_r.
  - destruct (is_dir x w) eqn:E1; [rewrite (K2 x E1) in E; discriminate|reflexivity].
Qed.

Lemma grows_map sets : grows (map EGrow sets) = Z.of_nat (List.length sets).
Proof. induction sets as [|l sets IH]; cbn [map grows List.length]; [reflexivity|]. rewrite IH. lia. Qed.
Lemma all_sets_map sets : all_sets (map EGrow sets) = sets.
Proof. induction sets as [|l sets IH]; cbn [map all_sets]; congruence. Qed.
Lemma others_map sets : others (map EGrow sets) = [].
Proof. induction sets as [|l sets IH]; cbn [map others]; auto. Qed.
Lemma all_true flags : Forall (eq true) flags -> flags = repeat true (List.length flags).
Proof. induction 1 as [|x l <- H IH]; cbn [List.length repeat]; congruence. Qed.
Lemma same_faults w fs : w_faults w = fs -> w = set_faults fs w.
Proof. intros <-. destruct w. reflexivity. Qed.

(** Without attempts before. *)
Lemma clean_vector b e lim s id base name schema sets w1 : let st := FileStorage id base in
  valid_name name -> free_place base name w1 -> w_faults w1 = [] -> maps_ok w1 -> fresh_name st name w1 ->
  wf_struct s -> schema_ok st schema -> Forall (sets_ok s) sets -> Z.of_nat (List.length sets) * s_size s + 16 <= isize_max ->
  exists sl w2, ev_session b e lim s st name schema (map EGrow sets) w1 = (Ret (Ok (repeat true (List.length sets), Ok sl)), w2) /\
    slice_ok sl /\ records s (sl_bytes sl) = elements s sets /\ sl_len sl = Z.of_nat (List.length sets) * s_size s /\
    w_files w2 (file_of base name) = Some (resource_bytes (sl_bytes sl)) /\ w_files w2 (file_of base (schema_name name)) = Some schema /\
    spared base (vector_files name) w1 w2 /\ is_dir (key_of base) w2 = true /\ maps_ok w2 /\ touches (cells_of st name) w1 w2.
Proof.
  intros st V P1 Hf MO F Hwf Sok Sets HL. set (ops := map EGrow sets).
  destruct (free_ready id base name w1 V P1) as (R1 & R2).
  assert (Ops : Forall (ev_op_ok st name s) ops) by (apply Forall_map; exact Sets).
  assert (HG : grows ops * s_size s + 16 <= isize_max) by (unfold ops; rewrite grows_map; exact HL).
  assert (Q : quiet st (others ops) w1) by (right; split; [exact Hf|]; unfold ops; rewrite others_map; intros f []).
  destruct (ev_progress b e lim st name schema s ops w1 Hwf Sok MO F (conj R1 R2) Ops HG Q)
    as (v & w2 & flags & v' & w3 & sl & w4 & C & R & Fl & Cl).
  destruct (ev_closed_ok b e lim st name schema s ops w1 v w2 flags v' w3 sl w4 Hwf Sok MO F Ops HG C R Cl (or_introl Fl))
    as (Lf & Sl & Sm & A & Rc & Ll & El & MO3 & B1 & B2 & F1 & F2).
  assert (Ek := kept_all ops flags Lf Fl). assert (Eg := kept_grows ops flags Lf Fl).
  assert (Ea : all_sets ops = sets) by apply all_sets_map. rewrite Ek, Ea in *.
  assert (Ss : ev_session b e lim s st name schema ops w1 = (Ret (Ok (repeat true (List.length sets), Ok sl)), w4)).
  { unfold ev_session, mtry, mbind. rewrite C. cbn beta iota. rewrite R. cbn beta iota. cbn [snd fst]. rewrite Cl.
    rewrite (all_true flags Fl), Lf. unfold ops. rewrite map_length. reflexivity. }
  exists sl, w4. split; [exact Ss|]. split; [exact Sl|]. split; [exact Rc|]. split; [exact Ll|]. split; [exact B1|]. split; [exact B2|].
  assert (Sp2 : spared base (vector_files name) w1 w4).
  { rewrite (same_faults w1 [] Hf) in Ss. eapply ev_session_spared. exact Ss. }
  assert (D : is_dir (key_of base) w4 = true).
  { set (Kn := among base (vector_files name)).
    assert (Vo : von Kn v).
    { destruct (stays_ev_create Kn b e id base name schema) with (w := w1) as (_ & X); [eexists; split; [|apply file_of_any]; cbn; auto..|].
      apply (X (Ok v)). fold st. rewrite C. reflexivity. }
    assert (I2 := stays_run Kn _ _ _ _ _ (stays_ev_run Kn b e lim s sets v Vo) R).
    assert (Vo' : von Kn v').
    { destruct (stays_ev_run Kn b e lim s sets v Vo w2) as (_ & X). apply (X (flags, v')). fold ops. rewrite R. reflexivity. }
    assert (I3 := stays_run Kn _ _ _ _ _ (stays_ev_close Kn b e v' Vo') Cl).
    eapply is_dir_more; [exact I3|]. eapply is_dir_more; [exact I2|].
    unfold create_external_vector, mtry, mbind in C. destruct (create_handle b e st name schema w1) as [[[h|k]| | |] wh] eqn:Ch; try discriminate C.
    injection C as _ <-. eapply handle_made; eauto. }
  split; [exact Sp2|]. split; [exact D|]. split; [exact MO3|].
  eapply (ev_session_touches b e lim s st name schema (cells_of st name) ops w1 _ w4 Hwf Sok MO F Ops HG); [auto| |exact Ss].
  unfold ops. rewrite others_map. intros f [].
Qed.
Lemma redo_vector b e lim s id base name schema sets w w1 : valid_name name -> tree_ok w -> free_place base name w ->
  tried_vector base name w w1 -> w_faults w1 = [] -> new_object id w1 ->
  wf_struct s -> schema_ok (FileStorage id base) schema -> Forall (sets_ok s) sets ->
  Z.of_nat (List.length sets) * s_size s + 16 <= isize_max ->
  exists sl w2, ev_session b e lim s (FileStorage id base) name schema (map EGrow sets) w1 =
      (Ret (Ok (repeat true (List.length sets), Ok sl)), w2) /\
    slice_ok sl /\ records s (sl_bytes sl) = elements s sets /\ av_len s sl = Z.of_nat (List.length sets) /\
    files_added base [(name, resource_bytes (sl_bytes sl)); (schema_name name, schema)] w w2.
Proof.
  intros V T P Tr Hf (MO & New) Hwf Sok Sets HL.
  assert (Sp := tried_vector_spared _ _ _ _ Tr). assert (P1 := spared_free _ _ _ _ _ (vector_files_valid _ V) V Sp P).
  assert (F : fresh_name (FileStorage id base) name w1) by (split; apply New).
  destruct (clean_vector b e lim s id base name schema sets w1 V P1 Hf MO F Hwf Sok Sets HL)
    as (sl & w4 & Ss & Sl & Rc & Ll & B1 & B2 & Sp2 & D & _).
  exists sl, w4. split; [exact Ss|]. split; [exact Sl|]. split; [exact Rc|].
  destruct Hwf as (Hpos & _). split; [unfold av_len; rewrite Ll, Z.div_mul by lia; reflexivity|].
  split; [|split].
  - intros n c [E|[E|[]]]; injection E as <- <-; [exact B1|exact B2].
  - intros k N. assert (Nk : ~ among base (vector_files name) k).
    { intros (n & [<-|[<-|[]]] & ->); (eapply N; [|reflexivity]); cbn [In]; eauto. }
    destruct Sp2 as (X2 & _). destruct Sp as (X1 & _). rewrite X2, X1; auto.
  - eapply dirs_twice; [exact Sp|]. eapply dirs_added; [exact Sp2| |exact D].
    apply Sp. intros D0 x X. exact (T _ _ D0 X).
Qed.

Lemma mv_grows_map items : mv_grows (map MGrow items) = Z.of_nat (List.length items).
Proof. induction items as [|l items IH]; cbn [map mv_grows List.length]; [reflexivity|]. rewrite IH. lia. Qed.
Lemma mv_all_map items : mv_all (map MGrow items) = items.
Proof. induction items as [|l items IH]; cbn [map mv_all]; congruence. Qed.
Lemma mv_others_map items : mv_others (map MGrow items) = [].
Proof. induction items as [|l items IH]; cbn [map mv_others]; auto. Qed.
Lemma clean_multi b e lim size bits ts id base name schema items w1 : let st := FileStorage id base in let ops := map MGrow items in
  valid_name name -> free_place base name w1 -> free_place base (index_name name) w1 -> w_faults w1 = [] -> maps_ok w1 -> mv_fresh st name w1 ->
  wf_struct (index_struct size bits) -> wf_vdesc ts -> mv_schema_ok st schema -> Forall (items_ok ts) items -> mv_fits size bits ts ops ->
  exists v w2, mv_session b e lim size bits ts st name schema ops w1 = (Ret (Ok (repeat true (List.length items), Ok v)), w2) /\
    mav_shows ts size bits v (buckets ts items) /\ mav_len b size bits v = Ret (Z.of_nat (List.length items)) /\
    (forall n c, In (n, c) [(name, resource_bytes (sl_bytes (ma_data v))); (schema_name name, schema);
      (index_name name, resource_bytes (sl_bytes (ma_index v))); (schema_name (index_name name), index_schema schema)] ->
      w_files w2 (file_of base n) = Some c) /\
    spared base (multi_files name) w1 w2 /\ is_dir (key_of base) w2 = true /\ maps_ok w2 /\ touches (mv_cells st name) w1 w2.
Proof.
  intros st ops V P1 P2 Hf MO F Hwi Hwf Sok Items Fit. assert (Vi := valid_index name V).
  assert (U1 := free_ready id base name w1 V P1). assert (U2 := free_ready id base (index_name name) w1 Vi P2).
  assert (Ops : Forall (mv_op_ok st name ts) ops) by (apply Forall_map; exact Items).
  assert (Q : quiet st (mv_others ops) w1) by (right; split; [exact Hf|]; unfold ops; rewrite mv_others_map; intros f []).
  destruct (mv_progress b e lim size bits ts st name schema Hwi Hwf V ops w1 Sok MO F (conj U1 U2) Ops Fit Q)
    as (v & w2 & flags & v' & w3 & iv & d & w4 & C & R & Fl & Cl).
  destruct (mv_closed_ok b e lim size bits ts st name schema Hwi Hwf V ops w1 v w2 flags v' w3 iv d w4 Sok MO F Ops Fit C R Cl (or_introl Fl))
    as (Lf & MO3 & Sh & Of & Li & S1 & S2 & D1 & D2 & _).
  assert (Ek := mv_kept_all ops flags Lf Fl). assert (Ea : mv_all ops = items) by apply mv_all_map. rewrite Ek, Ea in *.
  assert (Ss : mv_session b e lim size bits ts st name schema ops w1 = (Ret (Ok (repeat true (List.length items), Ok (mkMav iv d))), w4)).
  { unfold mv_session, mtry, mbind. rewrite C. cbn beta iota. rewrite R. cbn beta iota. cbn [snd fst]. rewrite Cl.
    rewrite (all_true flags Fl), Lf. unfold ops. rewrite map_length. reflexivity. }
  exists (mkMav iv d), w4. split; [exact Ss|]. split; [exact Sh|].
  split. { rewrite (mav_shows_len b size bits Hwi ts _ _ Sh). unfold buckets. rewrite map_length. reflexivity. }
  cbn [ma_data ma_index].
  assert (Sp2 : spared base (multi_files name) w1 w4).
  { rewrite (same_faults w1 [] Hf) in Ss. eapply mv_session_spared. exact Ss. }
  set (Kn := among base (multi_files name)).
  assert (K1 : Kn (res_key st name)) by (eexists; split; [|apply file_of_any]; cbn; auto).
  assert (K2 : Kn (res_key st (schema_name name))) by (eexists; split; [|apply file_of_any]; cbn; auto).
  assert (K3 : Kn (res_key st (index_name name))) by (eexists; split; [|apply file_of_any]; cbn; auto).
  assert (K4 : Kn (res_key st (schema_name (index_name name)))) by (eexists; split; [|apply file_of_any]; cbn; auto).
  assert (Vo : mon Kn v /\ is_dir (key_of base) w2 = true).
  { unfold create_multi_vector, create_external_vector, mtry, mbind in C.
    destruct (create_handle b e st (index_name name) (index_schema schema) w1) as [[[h|k]| | |] wh] eqn:Ch; try discriminate C.
    destruct (stays_handle Kn b e id base (index_name name) (index_schema schema) K3 K4 w1) as (_ & X). fold st in X.
    rewrite Ch in X. specialize (X (Ok h) eq_refl). cbn [mret] in C.
    assert (S := stays_handle Kn b e id base name schema K1 K2 wh). fold st in S.
    destruct (create_handle b e st name schema wh) as [[[h2|k]| | |] wh2]; try discriminate C.
    2:{ unfold handle_drop in C. destruct (negb false && is_open (ev_handle (ev_new h))); discriminate C. }
    destruct S as (I2 & X2). injection C as <- <-. split; [split; [exact X|exact (X2 (Ok h2) eq_refl)]|].
    eapply is_dir_more; [exact I2|]. eapply handle_made; [exact Ch|exact Hf|exact Vi|exact P2]. }
  destruct Vo as (Vo & Dw).
  assert (D : is_dir (key_of base) w4 = true).
  { assert (I2 := stays_run Kn _ _ _ _ _ (stays_mv_run Kn b e lim size bits ts items v Vo) R).
    assert (Vo' : mon Kn v').
    { destruct (stays_mv_run Kn b e lim size bits ts items v Vo w2) as (_ & X). apply (X (flags, v')). fold ops. rewrite R. reflexivity. }
    assert (I3 := stays_run Kn _ _ _ _ _ (stays_mv_close Kn b e lim size bits v' Vo') Cl).
    eapply is_dir_more; [exact I3|]. eapply is_dir_more; [exact I2|exact Dw]. }
  split.
  { destruct S1 as (A1 & A2 & _). destruct S2 as (A3 & A4 & _).
    intros n c [E|[E|[E|[E|[]]]]]; injection E as <- <-; assumption. }
  split; [exact Sp2|]. split; [exact D|]. split; [exact MO3|].
  eapply (mv_session_touches b e lim size bits ts st name schema Hwi Hwf V (mv_cells st name) ops w1 _ w4 Sok MO F Ops Fit); [auto| |exact Ss].
  unfold ops. rewrite mv_others_map. intros f [].
Qed.
Lemma redo_multi b e lim size bits ts id base name schema items w w1 : let st := FileStorage id base in let ops := map MGrow items in
  valid_name name -> tree_ok w -> free_place base name w -> free_place base (index_name name) w ->
  tried_multi base name w w1 -> w_faults w1 = [] -> new_object id w1 ->
  wf_struct (index_struct size bits) -> wf_vdesc ts -> mv_schema_ok st schema -> Forall (items_ok ts) items -> mv_fits size bits ts ops ->
  exists v w2, mv_session b e lim size bits ts st name schema ops w1 = (Ret (Ok (repeat true (List.length items), Ok v)), w2) /\
    mav_shows ts size bits v (buckets ts items) /\ mav_len b size bits v = Ret (Z.of_nat (List.length items)) /\
    files_added base [(name, resource_bytes (sl_bytes (ma_data v))); (schema_name name, schema);
      (index_name name, resource_bytes (sl_bytes (ma_index v))); (schema_name (index_name name), index_schema schema)] w w2.
Proof.
  intros st ops V T P Pi Tr Hf (MO & New) Hwi Hwf Sok Items Fit. assert (Vi := valid_index name V).
  assert (Sp := tried_multi_spared _ _ _ _ Tr).
  assert (P1 := spared_free _ _ _ _ _ (multi_files_valid _ V) V Sp P).
  assert (P2 := spared_free _ _ _ _ _ (multi_files_valid _ V) Vi Sp Pi).
  assert (F : mv_fresh st name w1) by (split; split; apply New).
  destruct (clean_multi b e lim size bits ts id base name schema items w1 V P1 P2 Hf MO F Hwi Hwf Sok Items Fit)
    as (v & w4 & Ss & Sh & Ln & B & Sp2 & D & _).
  exists v, w4. split; [exact Ss|]. split; [exact Sh|]. split; [exact Ln|]. split; [exact B|split].
  - intros k N. assert (Nk : ~ among base (multi_files name) k).
    { intros (n & [<-|[<-|[<-|[<-|[]]]]] & ->); (eapply N; [|reflexivity]); cbn [In]; eauto 6. }
    destruct Sp2 as (X2 & _). destruct Sp as (X1 & _). rewrite X2, X1; auto.
  - eapply dirs_twice; [exact Sp|]. eapply dirs_added; [exact Sp2| |exact D].
    apply Sp. intros D0 x X. exact (T _ _ D0 X).
Qed.

(** * Something in the way *)
Definition any (_ : key) : Prop := True.
Lemma create_dir_blocked id base n w o w' : create_output_stream (FileStorage id base) n w = (o, w') ->
  is_dir (file_of base n) w = true -> forall s, o <> Ret (Ok s).
Proof.
  intros R H s. unfold create_output_stream, mtry, mbind in R.
  destruct (path_exists (key_of base) w) as [o1 w1] eqn:E1. apply path_exists_cases in E1. destruct E1 as (_ & F1 & D1 & X1 & _).
  destruct X1 as [(x & ->)|(-> & _)]; [|injection R as <- <-; discriminate].
  destruct ((if x then mret (Ok tt) else create_dir_all (key_of base)) w1) as [o2 w2] eqn:E2.
  assert (G : is_dir (file_of base n) w2 = true).
  { rewrite <- (is_dir_eq w w1 _ D1) in H. destruct x; [injection E2 as <- <-; exact H|].
    eapply is_dir_more; [|exact H]. eapply (stays_run any); [apply stays_dirs|exact E2]. }
  destruct o2 as [[[]|k]| | |]; try (injection R as <- <-; discriminate). apply file_create_cases in R.
  destruct R as (v & _ & _ & _ & [(_ & Nd & _)|([(k & ->)| ->] & _)]); [|discriminate|discriminate].
  rewrite file_of_any in Nd. congruence.
Qed.
Lemma handle_dir_blocked b e id base name schema w o w' : create_handle b e (FileStorage id base) name schema w = (o, w') ->
  is_dir (file_of base name) w = true \/ is_dir (file_of base (schema_name name)) w = true -> forall h, o <> Ret (Ok h).
Proof.
  intros R H h. unfold create_handle, mtry, mbind in R.
  destruct (create_output_stream (FileStorage id base) (schema_name name) w) as [[[s|k]| | |] w1] eqn:E1; try (injection R as <- <-; discriminate).
  destruct H as [H|H]; [|destruct (create_dir_blocked _ _ _ _ _ _ E1 H s); reflexivity].
  destruct (stays_create any id base (schema_name name) I w) as (I1 & X). rewrite E1 in I1, X. assert (O := X _ eq_refl). cbn [good snd] in I1, O.
  destruct (write_schema schema s w1) as [[[y|k]| | |] w2] eqn:E2; try (injection R as <- <-; discriminate).
  assert (I2 := stays_run any _ _ _ _ _ (stays_schema any schema s O) E2).
  destruct (create_output_stream (FileStorage id base) name w2) as [[[s2|k]| | |] w3] eqn:E3; try (injection R as <- <-; discriminate).
  destruct (create_dir_blocked _ _ _ _ _ _ E3) with (s := s2); [|reflexivity].
  eapply is_dir_more; [exact I2|]. eapply is_dir_more; [exact I1|exact H].
Qed.
Lemma handle_base_blocked b e id base name schema w o w' : valid_name name -> ~ base_ready base w ->
  create_handle b e (FileStorage id base) name schema w = (o, w') -> (forall h, o <> Ret (Ok h)) /\ same_disk w w'.
Proof.
  intros V N R. unfold create_handle, mtry, mbind in R.
  destruct (create_output_stream (FileStorage id base) (schema_name name) w) as [o1 w1] eqn:E1.
  destruct (create_blocked _ _ _ _ _ _ (valid_schema _ V) N E1) as (A & K).
  destruct o1 as [[s|k]| | |]; [destruct (A s); reflexivity|..]; injection R as <- <-; (split; [discriminate|exact K]).
Qed.
Lemma base_same base w w' : same_disk w w' -> ~ base_ready base w -> ~ base_ready base w'.
Proof. intros (F & D). unfold base_ready, is_dir. rewrite F, D. auto. Qed.
Definition ran {A B} (o : outcome (result A B)) : Prop := exists a, o = Ret (Ok a).
Lemma ev_session_base b e lim s id base name schema ops fs w o w' : valid_name name -> ~ base_ready base w ->
  ev_session b e lim s (FileStorage id base) name schema ops (set_faults fs w) = (o, w') -> ~ ran o /\ same_disk w w'.
Proof.
  intros V N R. unfold ev_session, create_external_vector, mtry, mbind in R.
  destruct (create_handle b e (FileStorage id base) name schema (set_faults fs w)) as [o1 w1] eqn:E.
  destruct (handle_base_blocked _ _ _ _ _ _ (set_faults fs w) _ _ V N E) as (A & K).
  destruct o1 as [[h|k]| | |]; [destruct (A h); reflexivity|..]; injection R as <- <-; (split; [intros (a & X); discriminate X|exact K]).
Qed.
Lemma mv_session_base b e lim size bits ts id base name schema ops fs w o w' : valid_name name -> ~ base_ready base w ->
  mv_session b e lim size bits ts (FileStorage id base) name schema ops (set_faults fs w) = (o, w') -> ~ ran o /\ same_disk w w'.
Proof.
  intros V N R. unfold mv_session, create_multi_vector, create_external_vector, mtry, mbind in R.
  destruct (create_handle b e (FileStorage id base) (index_name name) (index_schema schema) (set_faults fs w)) as [o1 w1] eqn:E.
  destruct (handle_base_blocked _ _ _ _ _ _ (set_faults fs w) _ _ (valid_index _ V) N E) as (A & K).
  destruct o1 as [[h|k]| | |]; [destruct (A h); reflexivity|..]; injection R as <- <-; (split; [intros (a & X); discriminate X|exact K]).
Qed.
Lemma same_disk_trans w1 w2 w3 : same_disk w1 w2 -> same_disk w2 w3 -> same_disk w1 w3.
Proof. intros (A & B) (C & D). split; congruence. Qed.
Lemma tried_vector_base base name w w1 : valid_name name -> ~ base_ready base w -> tried_vector base name w w1 -> same_disk w w1.
Proof.
  intros V N T. induction T as [w1 H|w1 fs b e lim s id schema sets o w2 w3 T IH R H]; [exact H|].
  destruct (ev_session_base _ _ _ _ _ _ _ _ _ _ _ _ _ V (base_same _ _ _ IH N) R) as (_ & K). eauto using same_disk_trans.
Qed.
Lemma tried_multi_base base name w w1 : valid_name name -> ~ base_ready base w -> tried_multi base name w w1 -> same_disk w w1.
Proof.
  intros V N T. induction T as [w1 H|w1 fs b e lim size bits ts id schema items o w2 w3 T IH R H]; [exact H|].
  destruct (mv_session_base _ _ _ _ _ _ _ _ _ _ _ _ _ _ _ V (base_same _ _ _ IH N) R) as (_ & K). eauto using same_disk_trans.
Qed.
Lemma not_free base name w : ~ free_place base name w ->
  (is_dir (file_of base name) w = true \/ is_dir (file_of base (schema_name name)) w = true) \/ ~ base_ready base w.
Proof.
  intros N. destruct (is_dir (file_of base name) w) eqn:E1; [auto|]. destruct (is_dir (file_of base (schema_name name)) w) eqn:E2; [auto|].
  right. intros H. apply N. repeat split; auto.
Qed.
Lemma again_vector_blocked b e lim s id base name schema ops fs w w1 o w2 : valid_name name -> ~ free_place base name w ->
  tried_vector base name w w1 ->
  ev_session b e lim s (FileStorage id base) name schema ops (set_faults fs w1) = (o, w2) -> forall a, o <> Ret (Ok a).
Proof.
  intros V N T R a ->. destruct (not_free _ _ _ N) as [H|H].
  - destruct (tried_vector_spared _ _ _ _ T) as (_ & K & _). unfold ev_session, create_external_vector, mtry, mbind in R.
    destruct (create_handle b e (FileStorage id base) name schema (set_faults fs w1)) as [[[h|k]| | |] wh] eqn:E; try discriminate R.
    destruct (handle_dir_blocked _ _ _ _ _ _ _ _ _ E) with (h := h); [|reflexivity].
    destruct H as [H|H]; [left|right]; exact (K _ H).
  - destruct (ev_session_base _ _ _ _ _ _ _ _ _ _ _ _ _ V (base_same _ _ _ (tried_vector_base _ _ _ _ V H T) H) R) as (X & _).
    apply X. exists a. reflexivity.
Qed.
Lemma again_multi_blocked b e lim size bits ts id base name schema ops fs w w1 o w2 : valid_name name ->
  ~ (free_place base name w /\ free_place base (index_name name) w) -> tried_multi base name w w1 ->
  mv_session b e lim size bits ts (FileStorage id base) name schema ops (set_faults fs w1) = (o, w2) -> forall a, o <> Ret (Ok a).
Proof.
  intros V N T R a ->. destruct (tried_multi_spared _ _ _ _ T) as (_ & K & _).
  assert (C : ~ base_ready base w \/ exists n, (n = name \/ n = index_name name) /\
    (is_dir (file_of base n) w = true \/ is_dir (file_of base (schema_name n)) w = true)).
  { destruct (is_dir (file_of base name) w) eqn:E1; [right; exists name; auto|].
    destruct (is_dir (file_of base (schema_name name)) w) eqn:E2; [right; exists name; auto|].
    destruct (is_dir (file_of base (index_name name)) w) eqn:E3; [right; exists (index_name name); auto|].
    destruct (is_dir (file_of base (schema_name (index_name name))) w) eqn:E4; [right; exists (index_name name); auto|].
    left. intros H. apply N. repeat split; auto. }
  destruct C as [H|(n & Hn & H)].
  - destruct (mv_session_base _ _ _ _ _ _ _ _ _ _ _ _ _ _ _ V (base_same _ _ _ (tried_multi_base _ _ _ _ V H T) H) R) as (X & _).
    apply X. exists a. reflexivity.
  - unfold mv_session, create_multi_vector, create_external_vector, mtry, mbind in R.
    destruct (create_handle b e (FileStorage id base) (index_name name) (index_schema schema) (set_faults fs w1)) as [[[h|k]| | |] wh] eqn:E; try discriminate R.
    assert (H1 : is_dir (file_of base n) w1 = true \/ is_dir (file_of base (schema_name n)) w1 = true) by (destruct H as [H|H]; auto).
    destruct Hn as [-> | ->]; [|destruct (handle_dir_blocked _ _ _ _ _ _ _ _ _ E) with (h := h); [exact H1|reflexivity]].
    assert (I1 := stays_run any _ _ _ _ _ (stays_handle any b e id base (index_name name) (index_schema schema) I I) E).
    cbn [mret] in R. destruct (create_handle b e (FileStorage id base) name schema wh) as [[[h2|k]| | |] wh2] eqn:E2; try discriminate R.
    + destruct (handle_dir_blocked _ _ _ _ _ _ _ _ _ E2) with (h := h2); [|reflexivity].
      destruct H1 as [H1|H1]; [left|right]; exact (is_dir_more _ _ _ _ I1 H1).
    + unfold handle_drop in R. destruct (negb false && is_open (ev_handle (ev_new h))); discriminate R.
Qed.
