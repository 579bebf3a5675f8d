(** Debug and release builds agree unless the debug build panics. *)
From Verif Require Import Base Codec Structs Views Storage Writers MultiViews Archives BuilderSpec ProfileSpec.
Local Open Scope list_scope.
Local Open Scope Z_scope.

Lemma agrees_refl {A} (x : outcome A) : agrees x x.
Proof. right. reflexivity. Qed.
Lemma agrees_panic {A} (x : outcome A) : agrees Panic x.
Proof. left. reflexivity. Qed.
Lemma agrees_bind {A B} (x y : outcome A) (f g : A -> outcome B) :
  agrees x y -> (forall a, agrees (f a) (g a)) -> agrees (obind x f) (obind y g).
Proof. intros [->| ->] H; [left; reflexivity|]. destruct y; simpl; auto using agrees_refl. Qed.
Lemma magrees_refl {A} (m : M A) : magrees m m.
Proof. intros w. right. reflexivity. Qed.
Lemma magrees_lift {A} (x y : outcome A) : agrees x y -> magrees (lift x) (lift y).
Proof. intros [->| ->] w; [left|right]; reflexivity. Qed.
Lemma magrees_bind {A B} (x y : M A) (f g : A -> M B) :
  magrees x y -> (forall a, magrees (f a) (g a)) -> magrees (mbind x f) (mbind y g).
Proof.
  intros H F w. unfold mbind. destruct (H w) as [E|E].
  - destruct (x w) as [[a| | |] w1]; try discriminate E. left. reflexivity.
  - rewrite E. destruct (y w) as [[a| | |] w1]; auto. apply F.
Qed.
Lemma magrees_try {A B E F} (c : E -> F) (x y : M (result A E)) (f g : A -> M (result B F)) :
  magrees x y -> (forall a, magrees (f a) (g a)) -> magrees (mtry c x f) (mtry c y g).
Proof. intros H G. apply magrees_bind; [exact H|]. intros [a|a]; [apply G|apply magrees_refl]. Qed.
Lemma magrees_stry {B} (x y : M (result unit io_kind * stream)) (f g : stream -> M (result B io_kind)) :
  magrees x y -> (forall a, magrees (f a) (g a)) -> magrees (stry x f) (stry y g).
Proof. intros H G. apply magrees_bind; [exact H|]. intros [[a|a] s]; [apply G|apply magrees_refl]. Qed.

Create HintDb profile.
Ltac agree_step :=
  match goal with
  | |- forall _, _ => intro
  | |- agrees Panic _ => apply agrees_panic
  | |- agrees ?x ?x => apply agrees_refl
  | |- magrees ?x ?x => apply magrees_refl
  | |- magrees (lift _) (lift _) => apply magrees_lift
  | |- agrees _ _ => solve [auto with profile nocore]
  | |- magrees _ _ => solve [auto with profile nocore]
  | |- agrees (obind _ _) (obind _ _) => apply agrees_bind
  | |- magrees (mbind _ _) (mbind _ _) => apply magrees_bind
  | |- magrees (mtry _ _ _) (mtry _ _ _) => apply magrees_try
  | |- magrees (stry _ _) (stry _ _) => apply magrees_stry
  | |- context [match ?x with _ => _ end] => destruct x
  end.
Ltac agree := repeat agree_step.

Lemma agrees_wrap x : agrees (wrap_or_panic Debug x) (wrap_or_panic Release x).
Proof. unfold wrap_or_panic. destruct (_ && _); agree. Qed.
Lemma agrees_uadd x y : agrees (uadd Debug x y) (uadd Release x y).
Proof. apply agrees_wrap. Qed.
Lemma agrees_usub x y : agrees (usub Debug x y) (usub Release x y).
Proof. apply agrees_wrap. Qed.
Lemma agrees_umul x y : agrees (umul Debug x y) (umul Release x y).
Proof. apply agrees_wrap. Qed.
#[local] Hint Resolve agrees_uadd agrees_usub agrees_umul : profile.

(** * Codec and structs *)
Section Codec.
Variable e : endian.
Lemma agrees_read t m o n : agrees (read_bytes Debug e t m o n) (read_bytes Release e t m o n).
Proof.
  assert (H : forall t, agrees (read_bytes_int Debug e t m o n) (read_bytes_int Release e t m o n)).
  { clear t. intros t. unfold read_bytes_int, extend_sign. agree. }
  unfold read_bytes. destruct t; auto. apply agrees_bind; auto. agree.
Qed.
Lemma agrees_write t v d o n : agrees (write_bytes Debug e t v d o n) (write_bytes Release e t v d o n).
Proof. unfold write_bytes. destruct (64 <? n); agree. Qed.
#[local] Hint Resolve agrees_read agrees_write : profile.
Lemma agrees_get_field f m : agrees (get_field Debug e f m) (get_field Release e f m).
Proof. apply agrees_read. Qed.
Lemma agrees_set_field s f v m : agrees (set_field Debug e s f v m) (set_field Release e s f v m).
Proof. unfold set_field. agree. Qed.
#[local] Hint Resolve agrees_get_field agrees_set_field : profile.
Lemma agrees_run_sets s ops : forall m, agrees (run_sets Debug e s ops m) (run_sets Release e s ops m).
Proof. induction ops as [|[i v] r IH]; intros m; simpl; agree. Qed.
Lemma agrees_get_all s m : agrees (get_all Debug e s m) (get_all Release e s m).
Proof. unfold get_all. induction (s_fields s) as [|f r IH]; simpl; agree. Qed.
Lemma agrees_struct_eq s m1 m2 : agrees (struct_eq Debug e s m1 m2) (struct_eq Release e s m1 m2).
Proof. unfold struct_eq. induction (s_fields s) as [|f r IH]; simpl; agree. Qed.
Lemma agrees_fill_from s m o : agrees (fill_from Debug e s m o) (fill_from Release e s m o).
Proof. unfold fill_from. revert m. induction (s_fields s) as [|f r IH]; intros m; simpl; agree. Qed.
Lemma agrees_get_enum codes f m : agrees (get_enum Debug e codes f m) (get_enum Release e codes f m).
Proof. unfold get_enum. agree. Qed.
End Codec.
#[local] Hint Resolve agrees_read agrees_write agrees_get_field agrees_set_field agrees_run_sets agrees_get_all : profile.

(** * Views and vectors *)
Section Views.
Variables (e : endian) (s : sdesc).
Lemma agrees_data_index i : agrees (data_index Debug s i) (data_index Release s i).
Proof. apply agrees_umul. Qed.
#[local] Hint Resolve agrees_data_index : profile.
Lemma agrees_av_at v i : agrees (av_at Debug s v i) (av_at Release s v i).
Proof. unfold av_at. agree. Qed.
Lemma agrees_av_slice v lo hi : agrees (av_slice Debug s v lo hi) (av_slice Release s v lo hi).
Proof. unfold av_slice. agree. Qed.
#[local] Hint Resolve agrees_av_at agrees_av_slice : profile.
Lemma agrees_av_next v : agrees (av_next Debug s v) (av_next Release s v).
Proof. unfold av_next. agree. Qed.
Lemma agrees_av_next_back v : agrees (av_next_back Debug s v) (av_next_back Release s v).
Proof. unfold av_next_back. agree. Qed.
#[local] Hint Resolve agrees_av_next agrees_av_next_back : profile.
Lemma agrees_view_calls calls : forall v, agrees (view_calls Debug s calls v) (view_calls Release s calls v).
Proof.
  induction calls as [|c r IH]; intros v; simpl; [agree|].
  apply agrees_bind; [|intros x; apply agrees_bind; [apply IH|agree]].
  unfold view_step. destruct c; agree.
Qed.
Lemma agrees_av_take n : forall v, agrees (av_take Debug s n v) (av_take Release s n v).
Proof. induction n as [|n IH]; intros v; simpl; [agree|]. agree. Qed.
Lemma agrees_map {A B} (f g : A -> outcome B) l : (forall x, agrees (f x) (g x)) ->
  agrees (map_outcome f l) (map_outcome g l).
Proof. intros H. induction l as [|x r IH]; simpl; agree. Qed.
Lemma agrees_av_debug v : agrees (av_debug Debug e s v) (av_debug Release e s v).
Proof.
  unfold av_debug. apply agrees_bind; [apply agrees_av_take|]. intros p. apply agrees_bind; [|agree].
  apply agrees_map. agree.
Qed.
Lemma agrees_with_len n : agrees (vec_with_len Debug s n) (vec_with_len Release s n).
Proof. unfold vec_with_len, calc_size. agree. Qed.
Lemma agrees_vec_len d : agrees (vec_len Debug s d) (vec_len Release s d).
Proof. unfold vec_len, vec_size_in_bytes. agree. Qed.
#[local] Hint Resolve agrees_vec_len : profile.
Lemma agrees_vec_view d : agrees (vec_as_view Debug d) (vec_as_view Release d).
Proof. unfold vec_as_view, vec_size_in_bytes. agree. Qed.
Lemma agrees_vec_at d i : agrees (vec_at Debug s d i) (vec_at Release s d i).
Proof. unfold vec_at. agree. Qed.
Lemma agrees_through ops d p : agrees (through_handle Debug e s ops d p) (through_handle Release e s ops d p).
Proof. unfold through_handle. agree. Qed.
#[local] Hint Resolve agrees_through : profile.
Lemma agrees_vec_run ops : forall d, agrees (vec_run Debug e s ops d) (vec_run Release e s ops d).
Proof.
  induction ops as [|o r IH]; intros d; simpl; [agree|].
  apply agrees_bind; [|exact IH].
  unfold vec_step, vec_grow, vec_at_mut, vec_reserve, calc_size, vec_size_in_bytes. destruct o; agree.
Qed.
End Views.
#[local] Hint Resolve agrees_av_at agrees_av_slice agrees_through : profile.

(** * Multi views *)
Section Multi.
Variables (e : endian) (size bits : Z).
Lemma agrees_mav_len v : agrees (mav_len Debug size bits v) (mav_len Release size bits v).
Proof. unfold mav_len. agree. Qed.
#[local] Hint Resolve agrees_mav_len : profile.
Lemma agrees_mav_empty v : agrees (mav_is_empty Debug size bits v) (mav_is_empty Release size bits v).
Proof. unfold mav_is_empty. agree. Qed.
#[local] Hint Resolve agrees_mav_empty : profile.
Lemma agrees_mav_at v i : agrees (mav_at Debug e size bits v i) (mav_at Release e size bits v i).
Proof. unfold mav_at, mav_index_at, get_index. agree. Qed.
Lemma agrees_mav_slice v lo hi : agrees (mav_slice Debug size bits v lo hi) (mav_slice Release size bits v lo hi).
Proof. unfold mav_slice. agree. Qed.
#[local] Hint Resolve agrees_mav_at agrees_mav_slice : profile.
Lemma agrees_mav_next v : agrees (mav_next Debug e size bits v) (mav_next Release e size bits v).
Proof. unfold mav_next. agree. Qed.
Lemma agrees_mav_next_back v : agrees (mav_next_back Debug e size bits v) (mav_next_back Release e size bits v).
Proof. unfold mav_next_back. agree. Qed.
#[local] Hint Resolve agrees_mav_next agrees_mav_next_back : profile.
Lemma agrees_mav_calls calls : forall v, agrees (mav_calls Debug e size bits calls v) (mav_calls Release e size bits calls v).
Proof.
  induction calls as [|c r IH]; intros v; simpl; [agree|].
  apply agrees_bind; [|intros x; apply agrees_bind; [apply IH|agree]].
  unfold mav_step. destruct c; agree.
Qed.
Lemma agrees_mav_debug ts v : agrees (mav_debug Debug e size bits ts v) (mav_debug Release e size bits ts v).
Proof.
  assert (T : forall n v, agrees (mav_take Debug e size bits ts n v) (mav_take Release e size bits ts n v)).
  { induction n as [|n IH]; intros u; simpl; [agree|]. agree. }
  unfold mav_debug, mav_iter_len. apply agrees_bind; [agree|]. intros l.
  apply agrees_bind; [apply T|]. intros p. apply agrees_bind; [|agree].
  apply agrees_map. intros x. apply agrees_map. intros y. unfold get_item. agree.
Qed.
End Multi.

(** * Storage *)
Section Storage.
Variables (e : endian) (lim : Z).
Lemma agrees_write_size v s : magrees (write_size Debug e v s) (write_size Release e v s).
Proof. unfold write_size. agree. Qed.
#[local] Hint Resolve agrees_write_size : profile.
Lemma agrees_storage_write st n sch d : magrees (write Debug e st n sch d) (write Release e st n sch d).
Proof. unfold write, write_to_stream. agree. Qed.
Lemma agrees_storage_read st n x : magrees (read Debug e st n x) (read Release e st n x).
Proof. unfold read, check_resource. agree. Qed.
#[local] Hint Resolve agrees_storage_write agrees_storage_read : profile.
Lemma agrees_create_archive st n sch : magrees (create_archive Debug e st n sch) (create_archive Release e st n sch).
Proof. unfold create_archive. agree. Qed.
Lemma agrees_handle_write h d : magrees (handle_write Debug h d) (handle_write Release h d).
Proof. unfold handle_write. agree. Qed.
Lemma agrees_handle_close h : magrees (handle_close Debug e h) (handle_close Release e h).
Proof. unfold handle_close. agree. Qed.
#[local] Hint Resolve agrees_create_archive agrees_handle_write agrees_handle_close : profile.
Lemma agrees_create_handle st n sch : magrees (create_handle Debug e st n sch) (create_handle Release e st n sch).
Proof. unfold create_handle, handle_try_new. agree. Qed.
#[local] Hint Resolve agrees_create_handle : profile.
Lemma agrees_create_ev st n sch : magrees (create_external_vector Debug e st n sch) (create_external_vector Release e st n sch).
Proof. unfold create_external_vector. agree. Qed.
#[local] Hint Resolve agrees_create_ev : profile.
Lemma agrees_create_mv st n sch : magrees (create_multi_vector Debug e st n sch) (create_multi_vector Release e st n sch).
Proof. unfold create_multi_vector. agree. Qed.
Lemma agrees_ev_flush v : magrees (ev_flush Debug v) (ev_flush Release v).
Proof. unfold ev_flush. agree. Qed.
#[local] Hint Resolve agrees_ev_flush : profile.
Lemma agrees_ev_grow s v : magrees (ev_grow Debug lim s v) (ev_grow Release lim s v).
Proof. unfold ev_grow. agree. Qed.
#[local] Hint Resolve agrees_ev_grow : profile.
Lemma agrees_ev_set s sets p v : magrees (ev_set Debug e s sets p v) (ev_set Release e s sets p v).
Proof. unfold ev_set. agree. Qed.
#[local] Hint Resolve agrees_ev_set : profile.
Lemma agrees_ev_step s o v : magrees (ev_step Debug e lim s o v) (ev_step Release e lim s o v).
Proof. unfold ev_step. agree. Qed.
Lemma agrees_ev_close v : magrees (ev_close Debug e v) (ev_close Release e v).
Proof. unfold ev_close. agree. Qed.
#[local] Hint Resolve agrees_ev_step agrees_ev_close : profile.
Lemma agrees_ev_run s ops : forall v, magrees (ev_run Debug e lim s ops v) (ev_run Release e lim s ops v).
Proof. induction ops as [|o r IH]; intros v; simpl; agree. Qed.
Lemma agrees_mv_flush v : magrees (mv_flush Debug v) (mv_flush Release v).
Proof. unfold mv_flush. agree. Qed.
Lemma agrees_mv_index size bits v : magrees (mv_add_to_index Debug e lim size bits v) (mv_add_to_index Release e lim size bits v).
Proof. unfold mv_add_to_index. agree. Qed.
Lemma agrees_items_add ts items : forall d, agrees (items_add Debug e ts items d) (items_add Release e ts items d).
Proof. induction items as [|[t sets] r IH]; intros d; simpl; unfold item_add; agree. Qed.
#[local] Hint Resolve agrees_mv_flush agrees_mv_index agrees_items_add : profile.
Lemma agrees_mv_grow size bits v : magrees (mv_grow Debug e lim size bits v) (mv_grow Release e lim size bits v).
Proof. unfold mv_grow. agree. Qed.
Lemma agrees_mv_add ts items v : magrees (mv_add Debug e ts items v) (mv_add Release e ts items v).
Proof. unfold mv_add. agree. Qed.
#[local] Hint Resolve agrees_mv_grow agrees_mv_add : profile.
Lemma agrees_mv_step size bits ts o v : magrees (mv_step Debug e lim size bits ts o v) (mv_step Release e lim size bits ts o v).
Proof. unfold mv_step. agree. Qed.
Lemma agrees_mv_close size bits v : magrees (mv_close Debug e lim size bits v) (mv_close Release e lim size bits v).
Proof. unfold mv_close. agree. Qed.
#[local] Hint Resolve agrees_create_mv agrees_mv_step agrees_mv_close : profile.
Lemma agrees_mv_run size bits ts ops : forall v, magrees (mv_run Debug e lim size bits ts ops v) (mv_run Release e lim size bits ts ops v).
Proof. induction ops as [|o r IH]; intros v; simpl; agree. Qed.

(** * Archives and builders *)
Lemma agrees_check {A} opt (x y : M (result A rs_error)) : magrees x y -> magrees (check_part opt x) (check_part opt y).
Proof. intros H. apply magrees_bind; [exact H|agree]. Qed.
Lemma agrees_each {A B} (f g : A -> M (result B rs_error)) l : (forall x, magrees (f x) (g x)) -> magrees (each f l) (each g l).
Proof. intros H. induction l as [|x r IH]; simpl; agree. Qed.
Lemma agrees_open : forall a st, magrees (open_archive Debug e a st) (open_archive Release e a st).
Proof.
  fix IH 1. intros [name schema structs vectors multis raws subs] st. simpl.
  apply magrees_try; [agree|intros _].
  apply magrees_try; [apply agrees_each; intro; unfold open_typed; apply agrees_check; agree|intros ss].
  apply magrees_try; [apply agrees_each; intro; unfold open_typed; apply agrees_check; agree|intros vs].
  apply magrees_try; [apply agrees_each; intro; unfold open_multi|intros ms].
  { apply magrees_try; [apply agrees_check; agree|intro]. apply magrees_try; [apply agrees_check; agree|agree]. }
  apply magrees_try; [apply agrees_each; intro; unfold open_raw; apply agrees_check; agree|intros rs].
  apply magrees_try; [|agree].
  induction subs as [|[[n a'] opt] r IHr]; [agree|].
  apply magrees_try; [|intros y; apply magrees_try; [exact IHr|agree]].
  apply agrees_check. apply magrees_bind; [agree|]. intros st'. apply IH.
Qed.
Lemma agrees_builder_new a st : magrees (builder_new Debug e a st) (builder_new Release e a st).
Proof. unfold builder_new. agree. Qed.
#[local] Hint Resolve agrees_builder_new : profile.
Lemma agrees_bstep : forall o a s, magrees (bstep Debug e lim a o s) (bstep Release e lim a o s).
Proof.
  induction o; intros a s; simpl; unfold with_some, set_struct, set_vector, start_vector, start_multi, set_raw, sub_builder;
    agree.
Qed.
Lemma agrees_brun a ops : forall s, magrees (brun Debug e lim a ops s) (brun Release e lim a ops s).
Proof.
  induction ops as [|o r IH]; intros s; simpl; [agree|].
  apply magrees_bind; [apply agrees_bstep|]. intros x. apply magrees_bind; [apply IH|agree].
Qed.
End Storage.
