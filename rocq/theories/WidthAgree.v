(** Writers on a target of any width: with any failures, a debug build panics or
    does what the one for 64 bits does. *)
From Verif Require Import Base BaseFacts Codec Structs Views Storage Writers MultiViews.
From Verif Require Import ProfileSpec ProfileFacts Width WidthWriters WidthVectors WidthMemory WidthMemFacts Conc.
Local Open Scope list_scope.
Local Open Scope Z_scope.

Section Width.
Variable W : Z.
Hypothesis HW : 1 <= W <= 64.
Variables (e : endian) (lim : Z).

(** * The release build of the target *)
Section Release.
#[local] Hint Resolve wa_uadd wa_usub wa_umul agrees_run_sets agrees_through agrees_write_size agrees_create_handle
  agrees_create_ev agrees_create_mv agrees_ev_set : profile.
Lemma wr_write h d : magrees (handle_write_w W Debug h d) (handle_write_w W Release h d).
Proof. unfold handle_write_w. agree. Qed.
#[local] Hint Resolve wr_write : profile.
Lemma wr_writes cs : forall h, magrees (handle_writes_w W Debug cs h) (handle_writes_w W Release cs h).
Proof. induction cs as [|c cs IH]; intros h; cbn [handle_writes_w]; agree. Qed.
Lemma wr_finish h : magrees (handle_finish Debug e h) (handle_finish Release e h).
Proof. unfold handle_finish. agree. Qed.
#[local] Hint Resolve wr_writes wr_finish : profile.
Lemma wr_stream st name schema cs : magrees (stream_w W Debug e st name schema cs) (stream_w W Release e st name schema cs).
Proof. unfold stream_w. agree. Qed.
Lemma wr_finish_handle h : magrees (finish_handle Debug e h) (finish_handle Release e h).
Proof. unfold finish_handle. agree. Qed.
Lemma wr_ev_flush v : magrees (ev_flush_w W Debug v) (ev_flush_w W Release v).
Proof. unfold ev_flush_w. agree. Qed.
#[local] Hint Resolve wr_finish_handle wr_ev_flush : profile.
Lemma wr_ev_grow s v : magrees (ev_grow_w W Debug lim s v) (ev_grow_w W Release lim s v).
Proof. unfold ev_grow_w. agree. Qed.
Lemma wr_ev_finish v : magrees (ev_finish_w W Debug e v) (ev_finish_w W Release e v).
Proof. unfold ev_finish_w. agree. Qed.
#[local] Hint Resolve wr_ev_grow wr_ev_finish : profile.
Lemma wr_ev_fill s els : forall v, magrees (ev_fill_w W Debug e lim s els v) (ev_fill_w W Release e lim s els v).
Proof. induction els as [|x els IH]; intros v; cbn [ev_fill_w]; agree. Qed.
#[local] Hint Resolve wr_ev_fill : profile.
Lemma wr_vector s st name schema els :
  magrees (vector_session_w W Debug e lim s st name schema els) (vector_session_w W Release e lim s st name schema els).
Proof. unfold vector_session_w. agree. Qed.
Lemma wr_mv_flush v : magrees (mv_flush_w W Debug v) (mv_flush_w W Release v).
Proof. unfold mv_flush_w. agree. Qed.
Lemma wr_mv_index size bits v : magrees (mv_add_to_index_w W Debug e lim size bits v) (mv_add_to_index_w W Release e lim size bits v).
Proof. unfold mv_add_to_index_w. agree. Qed.
#[local] Hint Resolve wr_mv_flush wr_mv_index : profile.
Lemma wr_mv_grow size bits v : magrees (mv_grow_w W Debug e lim size bits v) (mv_grow_w W Release e lim size bits v).
Proof. unfold mv_grow_w. agree. Qed.
Lemma wr_item ts t sets d : agrees (item_add_w W Debug e ts t sets d) (item_add_w W Release e ts t sets d).
Proof. unfold item_add_w. agree. Qed.
#[local] Hint Resolve wr_mv_grow wr_item : profile.
Lemma wr_items ts items : forall d, agrees (items_add_w W Debug e ts items d) (items_add_w W Release e ts items d).
Proof. induction items as [|[t sets] r IH]; intros d; cbn [items_add_w]; agree. Qed.
#[local] Hint Resolve wr_items : profile.
Lemma wr_mv_add ts items v : magrees (mv_add_w W Debug e ts items v) (mv_add_w W Release e ts items v).
Proof. unfold mv_add_w. agree. Qed.
Lemma wr_mv_finish size bits v : magrees (mv_finish_w W Debug e lim size bits v) (mv_finish_w W Release e lim size bits v).
Proof. unfold mv_finish_w. agree. Qed.
#[local] Hint Resolve wr_mv_add wr_mv_finish : profile.
Lemma wr_mv_fill size bits ts els : forall v, magrees (mv_fill_w W Debug e lim size bits ts els v) (mv_fill_w W Release e lim size bits ts els v).
Proof. induction els as [|x els IH]; intros v; cbn [mv_fill_w]; agree. Qed.
#[local] Hint Resolve wr_mv_fill : profile.
Lemma wr_multi size bits ts st name schema els :
  magrees (multi_session_w W Debug e lim size bits ts st name schema els) (multi_session_w W Release e lim size bits ts st name schema els).
Proof. unfold multi_session_w. agree. Qed.
End Release.

(** * The debug build of a 64-bit target *)
Section Wide.
#[local] Hint Resolve wd_uadd wd_usub wd_umul wd_resize : profile.
Lemma ww_write h d : magrees (handle_write_w W Debug h d) (handle_write Debug h d).
Proof. unfold handle_write_w, handle_write. agree. Qed.
#[local] Hint Resolve ww_write : profile.
Lemma ww_writes cs : forall h, magrees (handle_writes_w W Debug cs h) (handle_writes Debug cs h).
Proof. induction cs as [|c cs IH]; intros h; cbn [handle_writes_w handle_writes]; agree. Qed.
#[local] Hint Resolve ww_writes : profile.
Lemma ww_stream st name schema cs : magrees (stream_w W Debug e st name schema cs) (stream_resource Debug e st name schema cs).
Proof. unfold stream_w, stream_resource. agree. Qed.
Lemma ww_ev_flush v : magrees (ev_flush_w W Debug v) (ev_flush Debug v).
Proof. unfold ev_flush_w, ev_flush. agree. Qed.
#[local] Hint Resolve ww_ev_flush : profile.
Lemma ww_ev_grow s v : magrees (ev_grow_w W Debug lim s v) (ev_grow Debug lim s v).
Proof. unfold ev_grow_w, ev_grow. agree. Qed.
Lemma ww_ev_finish v : magrees (ev_finish_w W Debug e v) (ev_finish Debug e v).
Proof. unfold ev_finish_w, ev_finish. agree. Qed.
#[local] Hint Resolve ww_ev_grow ww_ev_finish : profile.
Lemma ww_ev_fill s els : forall v, magrees (ev_fill_w W Debug e lim s els v) (ev_fill Debug e lim s els v).
Proof. induction els as [|x els IH]; intros v; cbn [ev_fill_w ev_fill]; agree. Qed.
#[local] Hint Resolve ww_ev_fill : profile.
Lemma ww_vector s st name schema els :
  magrees (vector_session_w W Debug e lim s st name schema els) (vector_session Debug e lim s st name schema els).
Proof. unfold vector_session_w, vector_session. agree. Qed.
Lemma ww_mv_flush v : magrees (mv_flush_w W Debug v) (mv_flush Debug v).
Proof. unfold mv_flush_w, mv_flush. agree. Qed.
Lemma ww_mv_index size bits v : magrees (mv_add_to_index_w W Debug e lim size bits v) (mv_add_to_index Debug e lim size bits v).
Proof. unfold mv_add_to_index_w, mv_add_to_index. agree. Qed.
#[local] Hint Resolve ww_mv_flush ww_mv_index : profile.
Lemma ww_mv_grow size bits v : magrees (mv_grow_w W Debug e lim size bits v) (mv_grow Debug e lim size bits v).
Proof. unfold mv_grow_w, mv_grow. agree. Qed.
Lemma ww_item ts t sets d : agrees (item_add_w W Debug e ts t sets d) (item_add Debug e ts t sets d).
Proof. unfold item_add_w, item_add. agree. Qed.
#[local] Hint Resolve ww_mv_grow ww_item : profile.
Lemma ww_items ts items : forall d, agrees (items_add_w W Debug e ts items d) (items_add Debug e ts items d).
Proof. induction items as [|[t sets] r IH]; intros d; cbn [items_add_w items_add]; agree. Qed.
#[local] Hint Resolve ww_items : profile.
Lemma ww_mv_add ts items v : magrees (mv_add_w W Debug e ts items v) (mv_add Debug e ts items v).
Proof. unfold mv_add_w, mv_add. agree. Qed.
Lemma ww_mv_finish size bits v : magrees (mv_finish_w W Debug e lim size bits v) (mv_finish Debug e lim size bits v).
Proof. unfold mv_finish_w, mv_finish. agree. Qed.
#[local] Hint Resolve ww_mv_add ww_mv_finish : profile.
Lemma ww_mv_fill size bits ts els : forall v, magrees (mv_fill_w W Debug e lim size bits ts els v) (mv_fill Debug e lim size bits ts els v).
Proof. induction els as [|x els IH]; intros v; cbn [mv_fill_w mv_fill]; agree. Qed.
#[local] Hint Resolve ww_mv_fill : profile.
Lemma ww_multi size bits ts st name schema els :
  magrees (multi_session_w W Debug e lim size bits ts st name schema els) (multi_session Debug e lim size bits ts st name schema els).
Proof. unfold multi_session_w, multi_session. agree. Qed.
End Wide.
End Width.
