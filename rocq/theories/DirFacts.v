(** Which directories are made: only those on the way to the directory of the
    storage. *)
From Verif Require Import Base BaseFacts Codec Structs Views Storage PathFacts StorageSpec StorageFacts Writers.
From Verif Require Import MultiViews Archives.
Local Open Scope list_scope.
Local Open Scope Z_scope.

Definition closed (k : key) (w : world) : Prop :=
  is_dir k w = true -> forall x, is_prefix_of x k = true -> is_dir x w = true.
Definition dirs_within (k : key) (w w' : world) : Prop :=
  (forall x, w_dirs w' x = true -> w_dirs w x = true \/ is_prefix_of x k = true) /\ (closed k w -> closed k w').
Definition within {A} (k : key) (m : M A) : Prop := forall w, dirs_within k w (snd (m w)).

Lemma dirs_within_same k w w' : w_dirs w' = w_dirs w -> dirs_within k w w'.
Proof. intros E. unfold dirs_within, closed, is_dir. rewrite E. auto. Qed.
Lemma dirs_within_trans k w1 w2 w3 : dirs_within k w1 w2 -> dirs_within k w2 w3 -> dirs_within k w1 w3.
Proof. intros [A A'] [B B']. split; [|auto]. intros x H. destruct (B x H) as [C|C]; auto. Qed.
Lemma is_prefix_whole k n x : is_prefix_of k (fst k, firstn n (snd k)) = true -> is_prefix_of x k = true ->
  is_prefix_of x (fst k, firstn n (snd k)) = true.
Proof.
  intros H P. unfold is_prefix_of in H. apply andb_prop in H as [_ H]. cbn [fst snd] in H. rewrite comps_eqb_eq in H.
  assert (E : firstn n (snd k) = snd k).
  { apply (f_equal (@List.length string)) in H. rewrite firstn_length, firstn_length in H. apply firstn_all2. lia. }
  rewrite E. destruct k. exact P.
Qed.
Lemma within_dirs k : within k (create_dir_all k).
Proof.
  intros w. assert (F : dirs_within k w (snd (next_fault w))) by (apply dirs_within_same; unfold next_fault; destruct (w_faults w); reflexivity).
  assert (G : forall u (f : key -> bool), (forall x, f x = true -> is_prefix_of x k = true) ->
    (f k = true -> forall x, is_prefix_of x k = true -> f x = true) -> dirs_within k u (set_dirs (fun x => w_dirs u x || f x) u)).
  { intros u f H1 H2. split.
    - cbn. intros x H. apply orb_prop in H as [H|H]; auto.
    - intros C K x P. unfold closed, is_dir in *. cbn in *. destruct (w_dirs u k || Nat.eqb (List.length (snd k)) 0) eqn:E.
      + specialize (C eq_refl x P). apply orb_prop in C as [C|C]; rewrite C; auto using orb_true_r.
      + apply orb_false_elim in E as [E1 E2]. rewrite E1, E2, orb_false_r in K. cbn in K. rewrite (H2 K x P), orb_true_r. reflexivity. }
  assert (S : forall n u, dirs_within k u (if file_on_path k u then u else make_dirs k n u)).
  { intros n u. destruct (file_on_path k u); [apply dirs_within_same; reflexivity|]. apply G; [intros x; apply is_prefix_firstn|].
    intros H x P. eapply is_prefix_whole; eauto. }
  unfold create_dir_all. destruct (next_fault w) as [f w1]. cbn [snd] in F.
  destruct f; [destruct (file_on_path k w1); [exact F|]|exact F| |]; (eapply dirs_within_trans; [exact F|]); cbn [snd]; [|apply S|apply S].
  apply G; auto.
Qed.

Section Within.
Variable k : key.
Lemma within_ret {A} (x : A) : within k (mret x).
Proof. intros w. apply dirs_within_same. reflexivity. Qed.
Lemma within_lift {A} (x : outcome A) : within k (lift x).
Proof. intros w. apply dirs_within_same. reflexivity. Qed.
Lemma within_panic {A} : within k (@mpanic A).
Proof. intros w. apply dirs_within_same. reflexivity. Qed.
Lemma within_bind {A B} (m : M A) (f : A -> M B) : within k m -> (forall x, within k (f x)) -> within k (mbind m f).
Proof.
  intros H F w. unfold mbind. specialize (H w). destruct (m w) as [[x| | |] w1]; try exact H.
  eapply dirs_within_trans; [exact H|apply F].
Qed.
Lemma within_try {A B E F} (c : E -> F) (m : M (result A E)) (f : A -> M (result B F)) :
  within k m -> (forall x, within k (f x)) -> within k (mtry c m f).
Proof. intros H G. apply within_bind; [exact H|]. intros [x|x]; [apply G|apply within_ret]. Qed.
Lemma within_stry {B} (m : M (result unit io_kind * stream)) (f : stream -> M (result B io_kind)) :
  within k m -> (forall x, within k (f x)) -> within k (stry m f).
Proof. intros H G. apply within_bind; [exact H|]. intros [[x|x] s]; [apply G|apply within_ret]. Qed.
Lemma within_fault w : dirs_within k w (snd (next_fault w)).
Proof. apply dirs_within_same. unfold next_fault. destruct (w_faults w); reflexivity. Qed.
Lemma within_syscall {A} (m : M (result A io_kind)) : within k m -> within k (syscall m).
Proof.
  intros H w. unfold syscall. assert (F := within_fault w). destruct (next_fault w) as [[| | |] w1]; try exact F.
  eapply dirs_within_trans; [exact F|apply H].
Qed.
Lemma within_pure {A} (f : world -> outcome A) (g : world -> world) : (forall w, w_dirs (g w) = w_dirs w) ->
  within k (fun w => (f w, g w)).
Proof. intros H w. apply dirs_within_same. apply H. Qed.

Lemma within_exists x : within k (path_exists x).
Proof.
  apply within_bind; [apply within_syscall; intros w; apply dirs_within_same; reflexivity|].
  intros [y|y]; apply within_ret.
Qed.
Lemma within_exists_ st n : within k (exists_ st n).
Proof. destruct st; [intros w; apply dirs_within_same; reflexivity|apply within_exists]. Qed.
Lemma within_write_all s d : within k (write_all s d).
Proof.
  destruct s as [id x|x p]; intros w; unfold write_all.
  - destruct (w_streams w id x) as [[c p]|]; apply dirs_within_same; reflexivity.
  - destruct d; [apply dirs_within_same; reflexivity|]. assert (F := within_fault w).
    destruct (next_fault w) as [[| | |] w1]; exact F.
Qed.
Lemma within_seek s : within k (seek_start s).
Proof.
  destruct s as [id x|x p]; unfold seek_start.
  - intros w. destruct (w_streams w id x) as [[c p]|]; apply dirs_within_same; reflexivity.
  - apply within_bind; [apply within_syscall, within_ret|]. intros [?|?]; apply within_ret.
Qed.
Lemma within_create st n : is_file st = true -> key_of (st_base st) = k -> within k (create_output_stream st n).
Proof.
  destruct st as [id base|id base]; [discriminate|]. intros _ E. cbn [st_base] in E. unfold create_output_stream. rewrite E.
  apply within_bind; [apply within_exists|]. intros x. apply within_try.
  - destruct x; [apply within_ret|apply within_dirs].
  - intros _. unfold file_create. apply within_syscall. intros w.
    destruct (is_dir _ w); [apply dirs_within_same; reflexivity|].
    destruct (is_dir _ w); apply dirs_within_same; reflexivity.
Qed.
Lemma within_create_mem id base n : within k (create_output_stream (MemStorage id base) n).
Proof.
  intros w. unfold create_output_stream. destruct (w_streams w id _) as [?|]; apply dirs_within_same; reflexivity.
Qed.
Lemma within_read b e st n x : within k (read b e st n x).
Proof.
  assert (R : forall n, within k (read_resource st n)).
  { intros m. destruct st as [id base|id base]; unfold read_resource.
    - intros w. destruct (w_resources w id _); [apply dirs_within_same; reflexivity|].
      destruct (w_streams w id _) as [[c p]|]; apply dirs_within_same; reflexivity.
    - apply within_bind; [apply within_exists|]. intros [|]; [|apply within_ret].
      intros w. unfold mmap_read. destruct (w_maps w id _); [apply dirs_within_same; reflexivity|].
      apply within_syscall. clear w. intros w. destruct (w_files w _); [|apply dirs_within_same; reflexivity].
      destruct (_ =? 0); apply dirs_within_same; reflexivity. }
  apply within_try; [apply R|]. intros d. apply within_try; [apply R|]. intros s. apply within_lift.
Qed.
End Within.

Ltac within_step :=
  match goal with
  | |- forall _, _ => intro
  | |- within _ (mret _) => apply within_ret
  | |- within _ (lift _) => apply within_lift
  | |- within _ mpanic => apply within_panic
  | |- within _ (mbind _ _) => apply within_bind
  | |- within _ (mtry _ _ _) => apply within_try
  | |- within _ (stry _ _) => apply within_stry
  | |- within _ (write_all _ _) => apply within_write_all
  | |- within _ (seek_start _) => apply within_seek
  | |- within _ (exists_ _ _) => apply within_exists_
  | |- within _ (read _ _ _ _ _) => apply within_read
  | |- within _ (create_output_stream _ _) => apply within_create; assumption
  | |- within _ (match ?x with _ => _ end) => destruct x
  end.
Ltac within_solve := repeat within_step.

Section Functions.
Variables (k : key) (b : build) (e : endian) (lim : Z) (st : storage).
Hypotheses (Hf : is_file st = true) (Hk : key_of (st_base st) = k).
Lemma within_write n schema d : within k (write b e st n schema d).
Proof. unfold write, write_to_stream, write_schema, write_size, write_padding. within_solve. Qed.
Lemma within_create_handle n schema : within k (create_handle b e st n schema).
Proof. unfold create_handle, write_schema, handle_try_new, write_size. within_solve. Qed.
Lemma within_create_ev n schema : within k (create_external_vector b e st n schema).
Proof. unfold create_external_vector. apply within_try; [apply within_create_handle|]. within_solve. Qed.
Lemma within_ev_flush v : within k (ev_flush b v).
Proof. unfold ev_flush, handle_write. within_solve. Qed.
Lemma within_ev_grow s v : within k (ev_grow b lim s v).
Proof. unfold ev_grow. apply within_bind; [destruct (_ <? _); [apply within_ev_flush|within_solve]|]. within_solve. Qed.
Lemma within_ev_step s sets v : within k (ev_step b e lim s (EGrow sets) v).
Proof. unfold ev_step, ev_set. apply within_bind; [apply within_ev_grow|]. within_solve. Qed.
Lemma within_handle_close h : within k (handle_close b e h).
Proof. unfold handle_close, write_padding, write_size. within_solve. Qed.
Lemma within_ev_close v : within k (ev_close b e v).
Proof.
  unfold ev_close, handle_drop. apply within_bind; [apply within_ev_flush|]. intros [[x|x] v']; [|within_solve].
  apply within_bind; [apply within_handle_close|]. within_solve.
Qed.
Lemma within_mv_flush v : within k (mv_flush b v).
Proof. unfold mv_flush, handle_write. within_solve. Qed.
Lemma within_mv_index size bits v : within k (mv_add_to_index b e lim size bits v).
Proof. unfold mv_add_to_index, ev_set. apply within_bind; [apply within_ev_grow|]. within_solve. Qed.
Lemma within_mv_step size bits ts items v : within k (mv_step b e lim size bits ts (MGrow items) v).
Proof.
  unfold mv_step, mv_grow, mv_add. apply within_bind; [|within_solve].
  apply within_bind; [destruct (_ <? _); [apply within_mv_flush|within_solve]|].
  intros [[x|x] v']; [apply within_mv_index|within_solve].
Qed.
Lemma within_mv_close size bits v : within k (mv_close b e lim size bits v).
Proof.
  unfold mv_close, mv_drop, handle_drop. apply within_bind; [apply within_mv_index|]. intros [[x|x] v']; [|within_solve].
  apply within_bind; [apply within_mv_flush|]. intros [[y|y] v2]; [|within_solve].
  apply within_bind; [apply within_ev_close|]. intros [z|z]; [|within_solve].
  apply within_bind; [apply within_handle_close|]. within_solve.
Qed.
Lemma within_create_mv n schema : within k (create_multi_vector b e st n schema).
Proof.
  unfold create_multi_vector, handle_drop. apply within_try; [apply within_create_ev|]. intros i.
  apply within_bind; [apply within_create_handle|]. within_solve.
Qed.
Lemma within_create_archive n schema : within k (create_archive b e st n schema).
Proof.
  unfold create_archive. apply within_bind; [apply within_exists_|]. intros [|]; [within_solve|].
  apply within_try; [apply within_write|]. within_solve.
Qed.
End Functions.
