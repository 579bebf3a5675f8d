(** Proofs about several processes that write the same resource at once. *)
From Verif Require Import Base BaseFacts Codec CodecSpec Storage PathFacts StorageSpec StorageFacts StorageMore Writers Conc.
Local Open Scope list_scope.
Local Open Scope Z_scope.

(** * A program alone is the function of Storage.v *)
Lemma interp_bind {A B} (p : prog A) (g : A -> prog B) w :
  interp (pbind p g) w = mbind (interp p) (fun a => interp (g a)) w.
Proof.
  revert w. induction p as [o|k f IH|k f IH|k f IH|f IH|k q d f IH]; intros w; simpl.
  - destruct o; reflexivity.
  - unfold mbind at 1. unfold mbind at 1. unfold mbind at 1. destruct (path_exists k w) as [[]]; auto. rewrite IH. reflexivity.
  - unfold mbind at 1. unfold mbind at 1. unfold mbind at 1. destruct (create_dir_all k w) as [[]]; auto. rewrite IH. reflexivity.
  - unfold mbind at 1. unfold mbind at 1. unfold mbind at 1. destruct (file_create k w) as [[]]; auto. rewrite IH. reflexivity.
  - unfold mbind at 1. unfold mbind at 1. unfold mbind at 1. destruct (syscall _ w) as [[]]; auto. rewrite IH. reflexivity.
  - unfold mbind at 1. unfold mbind at 1. unfold mbind at 1.
    match goal with |- context [match ?x with _ => _ end] => destruct x as [[]] end; auto. rewrite IH. reflexivity.
Qed.
Lemma mbind_ext {A B} (m m' : M A) (f f' : A -> M B) w : m w = m' w -> (forall a w, f a w = f' a w) ->
  mbind m f w = mbind m' f' w.
Proof. intros H1 H2. unfold mbind. rewrite H1. destruct (m' w) as [[]]; auto. Qed.
Lemma mbind_ret_r {A} (m : M A) w : mbind m (fun x => lift (Ret x)) w = m w.
Proof. unfold mbind. destruct (m w) as [[]]; auto. Qed.
Lemma interp_try {A B E F} (conv : E -> F) (p : prog (result A E)) (g : A -> prog (result B F)) m f w :
  interp p w = m w -> (forall a w, interp (g a) w = f a w) -> interp (ptry conv p g) w = mtry conv m f w.
Proof.
  intros H1 H2. unfold ptry, mtry. rewrite interp_bind. apply mbind_ext; auto.
  intros [a|x] w'; auto.
Qed.
Lemma interp_stry {B} (p : prog (result unit io_kind * stream)) (g : stream -> prog (result B io_kind)) m f w :
  interp p w = m w -> (forall s w, interp (g s) w = f s w) -> interp (pstry p g) w = stry m f w.
Proof.
  intros H1 H2. unfold pstry, stry. rewrite interp_bind. apply mbind_ext; auto.
  intros [[[]|x] s] w'; auto.
Qed.
Lemma interp_write_all k q d w : interp (write_all_p (SFile k q) d) w = write_all (SFile k q) d w.
Proof.
  destruct d as [|x d]; [reflexivity|]. unfold write_all_p. change (interp (PutAt k q (x :: d) (fun x => Done (Ret x))) w)
    with (mbind (write_all (SFile k q) (x :: d)) (fun x => lift (Ret x)) w). apply mbind_ret_r.
Qed.
(** Operations on files end with the file. *)
Definition on_file (k : key) (s : stream) : Prop := exists q, s = SFile k q.
Lemma stry_file {B} (m : M (result unit io_kind * stream)) (f f' : stream -> M (result B io_kind)) k w :
  (forall s w, on_file k s -> f s w = f' s w) ->
  (forall r s w', m w = (Ret (r, s), w') -> on_file k s) -> stry m f w = stry m f' w.
Proof.
  intros H1 H2. unfold stry, mbind. destruct (m w) as [[[[[]|x] s]| | |] w'] eqn:E; auto. apply H1. eapply H2; reflexivity.
Qed.
Lemma write_all_file k q d r s w w' : write_all (SFile k q) d w = (Ret (r, s), w') -> on_file k s.
Proof.
  unfold on_file. simpl. destruct d as [|x d]; [intros [= _ <- _]; eauto|].
  destruct (next_fault w) as [[]]; intros [= _ <- _]; eauto.
Qed.
Lemma interp_write_to_stream b e d k q w :
  interp (write_to_stream_p b e d (SFile k q)) w = write_to_stream b e d (SFile k q) w.
Proof.
  unfold write_to_stream_p, write_to_stream.
  transitivity (stry (write_size b e (len d) (SFile k q)) (fun s => interp (pstry (write_all_p s d) (fun s => pstry (write_all_p s (zeros PADDING_SIZE)) (fun _ => Done (Ret (Ok tt)))))) w).
  { apply interp_stry; [|reflexivity]. unfold write_size_p, write_size. rewrite interp_bind. apply mbind_ext; [reflexivity|].
    intros a w'. apply interp_write_all. }
  apply (stry_file _ _ _ k).
  2: { intros r s w'. unfold write_size, mbind, lift. rewrite write_size_bytes. apply write_all_file. }
  intros s w1 (q1 & ->).
  transitivity (stry (write_all (SFile k q1) d) (fun s => interp (pstry (write_all_p s (zeros PADDING_SIZE)) (fun _ => Done (Ret (Ok tt))))) w1).
  { apply interp_stry; [apply interp_write_all|reflexivity]. }
  apply (stry_file _ _ _ k); [|intros; eapply write_all_file; eauto].
  intros s w2 (q2 & ->). apply interp_stry; [apply interp_write_all|reflexivity].
Qed.
Lemma interp_create_output_stream id base name w :
  interp (create_output_stream_p base name) w = create_output_stream (FileStorage id base) name w.
Proof.
  unfold create_output_stream_p, create_output_stream. cbn [interp]. apply mbind_ext; [reflexivity|].
  intros x w1. apply interp_try.
  - destruct x; [reflexivity|]. apply mbind_ret_r.
  - intros a w2. apply mbind_ret_r.
Qed.
Lemma create_output_stream_file id base name s w w' :
  create_output_stream (FileStorage id base) name w = (Ret (Ok s), w') -> s = SFile (res_key (FileStorage id base) name) 0.
Proof.
  unfold create_output_stream, mtry, mbind. destruct (path_exists _ _) as [[x| | |] w1]; try discriminate.
  destruct ((if x then mret (Ok tt) else create_dir_all (key_of base)) w1) as [[[[]|]| | |] w2]; try discriminate.
  unfold file_create, syscall. destruct (next_fault w2) as [[] w3]; try discriminate.
  destruct (is_dir _ w3); try discriminate. destruct (is_dir _ w3); try discriminate. intros [= <- _]. reflexivity.
Qed.
Lemma mtry_ext {A B E F} (conv : E -> F) (m : M (result A E)) (f f' : A -> M (result B F)) w :
  (forall a w1 w', m w1 = (Ret (Ok a), w') -> f a w' = f' a w') -> mtry conv m f w = mtry conv m f' w.
Proof.
  intros H. unfold mtry, mbind. destruct (m w) as [[[a|x]| | |] w'] eqn:E0; auto. eapply H, E0.
Qed.
Lemma interp_write b e id base name schema data w :
  interp (write_p b e base name schema data) w = write b e (FileStorage id base) name schema data w.
Proof.
  unfold write_p, write.
  set (st := FileStorage id base).
  etransitivity.
  { apply interp_try; [apply (interp_create_output_stream id)|]. intros s w1. reflexivity. }
  apply mtry_ext. intros s w0 w1 H. apply create_output_stream_file in H. subst s.
  etransitivity.
  { apply interp_try; [apply interp_write_to_stream|]. intros s w2. reflexivity. }
  apply mtry_ext. intros [] _ w2 _.
  etransitivity.
  { apply interp_try; [apply (interp_create_output_stream id)|]. intros s w3. reflexivity. }
  apply mtry_ext. intros s w3 w4 H. apply create_output_stream_file in H. subst s.
  apply interp_stry; [apply interp_write_all|reflexivity].
Qed.
Lemma interp_create b e id base aname aschema w :
  interp (create_archive_p b e base aname aschema) w = create_archive b e (FileStorage id base) aname aschema w.
Proof.
  unfold create_archive_p, create_archive. cbn [interp]. apply mbind_ext; [reflexivity|].
  intros x w1. destruct x; [reflexivity|].
  apply interp_try; [apply interp_write|]. reflexivity.
Qed.

Lemma interp_write_size b e v k q w : interp (write_size_p b e v (SFile k q)) w = write_size b e v (SFile k q) w.
Proof.
  unfold write_size_p, write_size. rewrite interp_bind. apply mbind_ext; [reflexivity|].
  intros a w'. apply interp_write_all.
Qed.
Lemma write_size_file b e v k q r s w w' : write_size b e v (SFile k q) w = (Ret (r, s), w') -> on_file k s.
Proof. unfold write_size, mbind, lift. rewrite write_size_bytes. apply write_all_file. Qed.
Lemma interp_seek k q w : interp (seek_start_p (SFile k q)) w = seek_start (SFile k q) w.
Proof. simpl. apply mbind_ext; [reflexivity|]. intros [[]|x] w'; reflexivity. Qed.
Lemma seek_file k q r s w w' : seek_start (SFile k q) w = (Ret (r, s), w') -> on_file k s.
Proof.
  unfold seek_start, mbind, on_file, mret. destruct (syscall _ w) as [[[[]|x]| | |] w1]; intros [= _ <- _]; eauto.
Qed.
Lemma interp_finish b e n k q st name schema w :
  interp (finish_p b e n (SFile k q)) w = handle_finish b e (mkHandle (Some (SFile k q)) n st name schema) w.
Proof.
  unfold finish_p, handle_finish. cbn [h_stream h_size].
  etransitivity; [apply interp_stry; [apply interp_write_all|intros s w'; reflexivity]|].
  apply (stry_file _ _ _ k); [|intros; eapply write_all_file; eauto]. intros s w1 (q1 & ->).
  etransitivity; [apply interp_stry; [apply interp_seek|intros s w'; reflexivity]|].
  apply (stry_file _ _ _ k); [|intros; eapply seek_file; eauto]. intros s w2 (q2 & ->).
  apply interp_stry; [apply interp_write_size|reflexivity].
Qed.
(** A program and a function that do the same alone; the results satisfy [Q]. *)
Definition same_as {A} (Q : A -> Prop) (p : prog A) (m : M A) : Prop :=
  forall w, interp p w = m w /\ forall a w', m w = (Ret a, w') -> Q a.
Lemma same_bind {A B} (Q : A -> Prop) (R : B -> Prop) p m g f :
  same_as Q p m -> (forall a, Q a -> same_as R (g a) (f a)) -> same_as R (pbind p g) (mbind m f).
Proof.
  intros H K w. destruct (H w) as (E & HQ). rewrite interp_bind. unfold mbind. rewrite E.
  destruct (m w) as [[a| | |] w'] eqn:Em; try (split; [reflexivity|intros ? ? X; discriminate]). apply (K a). eapply HQ; eauto.
Qed.
Lemma same_done {A} (Q : A -> Prop) o : (forall a, o = Ret a -> Q a) -> same_as Q (Done o) (lift o).
Proof. intros H w. split; [reflexivity|]. unfold lift. intros a w' [= E _]. auto. Qed.
Lemma same_ret {A} (Q : A -> Prop) a : Q a -> same_as Q (Done (Ret a)) (mret a).
Proof. intros H. apply (same_done Q (Ret a)). intros ? [= <-]. auto. Qed.
Lemma same_lift {A B} (R : B -> Prop) (o : outcome A) g f :
  (forall a, o = Ret a -> same_as R (g a) (f a)) -> same_as R (pbind (Done o) g) (mbind (lift o) f).
Proof. intros H. apply (same_bind (fun a => o = Ret a)); auto. apply same_done. auto. Qed.
Lemma same_try {A B E F} (conv : E -> F) (Q : A -> Prop) (R : result B F -> Prop) p m g f :
  same_as (fun r => match r with Ok a => Q a | Er _ => True end) p m -> (forall a, Q a -> same_as R (g a) (f a)) ->
  (forall x, R (Er x)) -> same_as R (ptry conv p g) (mtry conv m f).
Proof. intros H K Hx. eapply same_bind; [exact H|]. intros [a|x] Ha; auto. apply same_ret. auto. Qed.
Lemma same_stry {B} k (R : result B io_kind -> Prop) p m g f :
  same_as (fun r => on_file k (snd r)) p m -> (forall s, on_file k s -> same_as R (g s) (f s)) -> (forall x, R (Er x)) ->
  same_as R (pstry p g) (stry m f).
Proof. intros H K Hx. eapply same_bind; [exact H|]. intros [[u|x] s] Ha; [auto|]. apply same_ret. auto. Qed.
Lemma same_weaken {A} (Q R : A -> Prop) p m : same_as Q p m -> (forall a, Q a -> R a) -> same_as R p m.
Proof. intros H K w. destruct (H w) as (E & HQ). split; auto. intros a w' X. apply K. eapply HQ; eauto. Qed.
Lemma same_write_all k s d : on_file k s -> same_as (fun r => on_file k (snd r)) (write_all_p s d) (write_all s d).
Proof. intros (q & ->) w. split; [apply interp_write_all|]. intros [r s] w' H. eapply write_all_file; eauto. Qed.
Lemma same_write_size b e v k s : on_file k s -> same_as (fun r => on_file k (snd r)) (write_size_p b e v s) (write_size b e v s).
Proof. intros (q & ->) w. split; [apply interp_write_size|]. intros [r s] w' H. eapply write_size_file; eauto. Qed.
Lemma same_seek k s : on_file k s -> same_as (fun r => on_file k (snd r)) (seek_start_p s) (seek_start s).
Proof. intros (q & ->) w. split; [apply interp_seek|]. intros [r s] w' H. eapply seek_file; eauto. Qed.
Lemma same_create_output_stream id base name :
  same_as (fun r => match r with Ok s => on_file (res_key (FileStorage id base) name) s | Er _ => True end)
    (create_output_stream_p base name) (create_output_stream (FileStorage id base) name).
Proof.
  intros w. split; [apply interp_create_output_stream|]. intros [s|x] w' H; auto. apply create_output_stream_file in H. eexists. eauto.
Qed.
(** An open handle of file [k]. *)
Definition on_handle (k : key) (h : handle) : Prop := exists s, h_stream h = Some s /\ on_file k s.
Lemma same_create_handle b e base name schema :
  same_as (fun r => match r with Ok h => on_handle (res_key (FileStorage 0 base) name) h | Er _ => True end)
    (create_handle_p b e base name schema) (create_handle b e (FileStorage 0 base) name schema).
Proof.
  unfold create_handle_p, open_p, create_handle, handle_try_new.
  intros w. split.
  - unfold ptry at 1. rewrite interp_bind. unfold mbind.
    assert (X : interp (open_p b e base name schema) w =
      mtry (fun k => k) (create_output_stream (FileStorage 0 base) (schema_name name)) (fun s =>
      mtry (fun k => k) (write_schema schema s) (fun _ =>
      mtry (fun k => k) (create_output_stream (FileStorage 0 base) name) (fun s =>
      stry (write_size b e 0 s) (fun s => mret (Ok s))))) w).
    { assert (Y : same_as (fun _ => True) (open_p b e base name schema) (
        mtry (fun k => k) (create_output_stream (FileStorage 0 base) (schema_name name)) (fun s =>
        mtry (fun k => k) (write_schema schema s) (fun _ =>
        mtry (fun k => k) (create_output_stream (FileStorage 0 base) name) (fun s =>
        stry (write_size b e 0 s) (fun s => mret (Ok s))))))); [|apply (Y w)].
      unfold open_p. eapply same_try; [apply (same_create_output_stream 0)| |auto]. intros s Hs.
      eapply (same_try _ (fun _ => True)); [| |auto].
      - eapply same_weaken; [eapply (same_stry _ (fun _ => True)); [apply same_write_all; exact Hs|intros; apply same_ret; auto|auto]|].
        intros [a|x] _; auto.
      - intros _ _. eapply same_try; [apply (same_create_output_stream 0)| |auto]. intros s2 Hs2.
        eapply same_stry; [apply same_write_size; exact Hs2|intros; apply same_ret; auto|auto]. }
    unfold open_p in X. rewrite X. clear X. unfold mtry, stry, mbind.
    destruct (create_output_stream _ (schema_name name) w) as [[[s|x]| | |] w1]; try reflexivity.
    destruct (write_schema schema s w1) as [[[[]|x]| | |] w2]; try reflexivity.
    destruct (create_output_stream _ name w2) as [[[s2|x]| | |] w3]; try reflexivity.
    destruct (write_size b e 0 s2 w3) as [[[[[]|x] s3]| | |] w4]; reflexivity.
  - intros [h|x] w'; auto. unfold mtry, stry, mbind, mret.
    destruct (create_output_stream _ (schema_name name) w) as [[[s|x]| | |] w1]; try discriminate.
    destruct (write_schema schema s w1) as [[[[]|x]| | |] w2]; try discriminate.
    destruct (create_output_stream _ name w2) as [[[s2|x]| | |] w3] eqn:E3; try discriminate.
    destruct (write_size b e 0 s2 w3) as [[[[[]|x] s3]| | |] w4] eqn:E4; try discriminate.
    intros [= <- _]. apply create_output_stream_file in E3. subst s2. eexists. split; [reflexivity|]. eapply write_size_file; eauto.
Qed.
Lemma same_finish b e n k s st name schema : on_file k s ->
  same_as (fun _ => True) (finish_p b e n s) (handle_finish b e (mkHandle (Some s) n st name schema)).
Proof. intros (q & ->) w. split; auto. apply interp_finish. Qed.
Lemma same_chunks b k st name schema cs : forall n s, on_file k s ->
  same_as (fun r => match r with Ok h => on_handle k h | Er _ => True end)
    (ptry (fun x => x) (chunks_p b cs n s) (fun r => Done (Ret (Ok (mkHandle (Some (snd r)) (fst r) st name schema)))))
    (handle_writes b cs (mkHandle (Some s) n st name schema)).
Proof.
  induction cs as [|c cs IH]; intros n s Hs; cbn [chunks_p handle_writes].
  - apply (same_ret _ (Ok (mkHandle (Some s) n st name schema))). eexists. split; [reflexivity|auto].
  - intros w. destruct (same_write_all k s c Hs w) as (E & Hq).
    assert (Y : forall r, r = handle_write b (mkHandle (Some s) n st name schema) c w ->
      r = match write_all s c w with
          | (Ret (Ok _, s1), w1) => match uadd b n (len c) with
                                    | Ret n' => (Ret (Ok tt, mkHandle (Some s1) n' st name schema), w1)
                                    | Panic => (Panic, w1) | UB => (UB, w1) | Crash => (Crash, w1) end
          | (Ret (Er x, s1), w1) => (Ret (Er x, mkHandle (Some s1) n st name schema), w1)
          | (Panic, w1) => (Panic, w1) | (UB, w1) => (UB, w1) | (Crash, w1) => (Crash, w1) end).
    { intros r ->. unfold handle_write, mbind, lift. cbn [h_stream h_size h_storage h_name h_schema].
      destruct (write_all s c w) as [[[[u|x] s1]| | |] w1]; try reflexivity. }
    unfold ptry, pstry. rewrite !interp_bind. unfold mbind. rewrite !interp_bind. unfold mbind. rewrite E, (Y _ eq_refl). clear E Y.
    destruct (write_all s c w) as [[[[u|x] s1]| | |] w1] eqn:Ew;
      try (split; [reflexivity|intros ? ? X; try discriminate; injection X as <- _; exact I]).
    assert (H1 := Hq _ _ eq_refl). cbn [snd] in H1. rewrite interp_bind. unfold mbind. cbn [interp]. unfold lift.
    destruct (uadd b n (len c)) as [n'| | |]; try (split; [reflexivity|intros ? ? X; discriminate]).
    destruct (IH n' s1 H1 w1) as (E1 & Q1). unfold ptry in E1. rewrite interp_bind in E1. unfold mbind in E1. split; [exact E1|exact Q1].
Qed.
Lemma interp_stream b e base name schema cs w :
  interp (stream_p b e base name schema cs) w = stream_resource b e (FileStorage 0 base) name schema cs w.
Proof.
  assert (Y : same_as (fun _ => True)
    (ptry (fun k => k) (create_handle_p b e base name schema) (fun h =>
      match h_stream h with None => Done UB | Some s => ptry (fun x => x) (chunks_p b cs (h_size h) s) (fun r => finish_p b e (fst r) (snd r)) end))
    (stream_resource b e (FileStorage 0 base) name schema cs)).
  { unfold stream_resource. eapply same_try; [apply same_create_handle| |auto]. intros [os n st nm sc] (s & Es & Hs). cbn in Es |- *. subst os.
    intros w1. split; auto. destruct (same_chunks b _ st nm sc cs n s Hs w1) as (E1 & Q1).
    unfold mtry, mbind. rewrite <- E1. unfold ptry. rewrite !interp_bind. unfold mbind.
    destruct (interp (chunks_p b cs n s) w1) as [[[[n1 s1]|x]| | |] w2] eqn:E2; try reflexivity. cbn [interp lift fst snd].
    unfold lift. assert (Hf : on_handle (res_key (FileStorage 0 base) name) (mkHandle (Some s1) n1 st nm sc)).
    { apply (Q1 (Ok (mkHandle (Some s1) n1 st nm sc)) w2). rewrite <- E1. unfold ptry. rewrite interp_bind. unfold mbind. rewrite E2. reflexivity. }
    destruct Hf as (s2 & Es2 & Hs2). cbn in Es2. injection Es2 as <-. apply (same_finish b e n1 _ s1 st nm sc Hs2 w2). }
  destruct (Y w) as (E & _). rewrite <- E. unfold stream_p, create_handle_p, ptry. rewrite !interp_bind. unfold mbind. rewrite !interp_bind. unfold mbind.
  destruct (interp (open_p b e base name schema) w) as [[[s|x]| | |] w1]; reflexivity.
Qed.
(** What [handle_finish] leaves out of handle_close is the last step. *)
Lemma close_is_finish b e h w :
  match finish_handle b e h w with
  | (Ret (Ok _, h'), w') => handle_close b e h w = (let! d := read b e (h_storage h) (h_name h) (h_schema h) in mret (d, h')) w'
  | (Ret (Er x, h'), w') => exists h'', handle_close b e h w = (Ret (Er x, h''), w') /\ is_open h'' = is_open h'
  | (Panic, w') => handle_close b e h w = (Panic, w')
  | (UB, w') => handle_close b e h w = (UB, w')
  | (Crash, w') => handle_close b e h w = (Crash, w')
  end.
Proof.
  unfold handle_close, finish_handle. destruct (h_stream h) as [s|] eqn:H; [|exists h; split; reflexivity].
  unfold handle_finish, stry, mbind, mret, is_open. rewrite H.
  destruct (write_padding s w) as [[[[[]|x] s1]| | |] w1]; try (eexists; split; [reflexivity|rewrite H; reflexivity]); try reflexivity.
  destruct (seek_start s1 w1) as [[[[[]|x] s2]| | |] w2]; try (eexists; split; [reflexivity|rewrite H; reflexivity]); try reflexivity.
  destruct (write_size b e (h_size h) s2 w2) as [[[[[]|x] s3]| | |] w3]; try (eexists; split; [reflexivity|rewrite H; reflexivity]); try reflexivity.
Qed.
Lemma same_handle_write b k h d : on_handle k h ->
  same_as (fun r => on_handle k (snd r)) (handle_write_p b h d) (handle_write b h d).
Proof.
  intros (s & Es & Hs). unfold handle_write_p, handle_write. rewrite Es. eapply same_bind; [apply same_write_all; exact Hs|].
  intros [[u|x] s1] H1; cbn [snd] in H1.
  - apply same_lift. intros n _. apply same_ret. eexists. split; [reflexivity|auto].
  - apply same_ret. eexists. split; [reflexivity|auto].
Qed.
Lemma same_finish_handle b e k h : on_handle k h -> same_as (fun _ => True) (handle_finish_p b e h) (finish_handle b e h).
Proof.
  intros (s & Es & Hs). unfold handle_finish_p, finish_handle. rewrite Es. destruct h as [os n st name schema]. cbn in Es |- *. subst os.
  eapply same_bind; [eapply same_finish; exact Hs|]. intros [u|x] _; apply same_ret; auto.
Qed.
Lemma same_drop h : same_as (fun _ => True) (drop_p h) (handle_drop false h).
Proof. intros w. split; auto. unfold drop_p, handle_drop. simpl. destruct (is_open h); reflexivity. Qed.
Lemma same_ev_flush b k v : on_handle k (ev_handle v) ->
  same_as (fun r => on_handle k (ev_handle (snd r))) (ev_flush_p b v) (ev_flush b v).
Proof.
  intros H. unfold ev_flush_p, ev_flush. apply same_lift. intros n _. apply same_lift. intros d _.
  eapply same_bind; [apply same_handle_write; exact H|]. intros [[u|x] h] Hh; apply same_ret; exact Hh.
Qed.
Lemma same_ev_grow b lim s k v : on_handle k (ev_handle v) ->
  same_as (fun r => on_handle k (ev_handle (snd r))) (ev_grow_p b lim s v) (ev_grow b lim s v).
Proof.
  intros H. unfold ev_grow_p, ev_grow. apply (same_bind (fun r => on_handle k (ev_handle (snd r)))).
  - destruct (lim <? len (ev_data v)); [apply same_ev_flush; auto|apply same_ret; auto].
  - intros [[u|x] v1] H1; [|apply same_ret; auto]. cbn [snd] in H1. cbv zeta.
    apply same_lift. intros n _. apply same_lift. intros data _. apply same_lift. intros l _. apply same_lift. intros p _.
    apply same_lift. intros q _. apply same_ret. exact H1.
Qed.
Lemma same_ev_set b e s sets p k v : on_handle k (ev_handle v) ->
  same_as (fun v => on_handle k (ev_handle v)) (ev_set_p b e s sets p v) (ev_set b e s sets p v).
Proof. intros H. unfold ev_set_p, ev_set. apply same_lift. intros d _. apply same_ret. exact H. Qed.
Lemma same_ev_finish b e k v : on_handle k (ev_handle v) -> same_as (fun _ => True) (ev_finish_p b e v) (ev_finish b e v).
Proof.
  intros H. unfold ev_finish_p, ev_finish. eapply same_bind; [apply same_ev_flush; exact H|].
  intros [[u|x] v1] H1; cbn [snd] in H1.
  - eapply same_bind; [eapply same_finish_handle; exact H1|]. intros r _.
    eapply same_bind; [apply same_drop|]. intros _ _. apply same_ret. auto.
  - eapply same_bind; [apply same_drop|]. intros _ _. apply same_ret. auto.
Qed.
Lemma same_ev_fill b e lim s k els : forall v, on_handle k (ev_handle v) ->
  same_as (fun r => match r with Ok v => on_handle k (ev_handle v) | Er _ => True end) (ev_fill_p b e lim s els v) (ev_fill b e lim s els v).
Proof.
  induction els as [|sets els IH]; intros v H; cbn [ev_fill_p ev_fill]; [apply same_ret; auto|].
  eapply same_bind; [apply same_ev_grow; exact H|]. intros [[p|x] v1] H1; cbn [snd] in H1.
  - eapply same_bind; [apply same_ev_set; exact H1|]. intros v2 H2. apply IH. exact H2.
  - eapply same_bind; [apply same_drop|]. intros _ _. apply same_ret. auto.
Qed.
Lemma same_vector b e lim s base name schema els :
  same_as (fun _ => True) (vector_p b e lim s base name schema els) (vector_session b e lim s (FileStorage 0 base) name schema els).
Proof.
  assert (Y : same_as (fun _ => True) (vector_p b e lim s base name schema els)
    (mtry (fun k => EIo k name) (create_handle b e (FileStorage 0 base) name schema) (fun h =>
     mtry (fun k => EIo k name) (ev_fill b e lim s els (ev_new h)) (ev_finish b e)))).
  { unfold vector_p. eapply same_try; [apply same_create_handle| |auto]. intros h Hh.
    eapply same_try; [apply same_ev_fill; exact Hh| |auto]. intros v Hv. eapply same_ev_finish; exact Hv. }
  intros w. split; auto. destruct (Y w) as (E & _). rewrite E. unfold vector_session, create_external_vector, mtry, mbind.
  destruct (create_handle b e (FileStorage 0 base) name schema w) as [[[h|x]| | |] w1]; reflexivity.
Qed.

(** Both handles of a multivector are open. *)
Definition on_multi (ki kd : key) (v : multi_vec) : Prop := on_handle ki (ev_handle (mv_index v)) /\ on_handle kd (mv_handle v).
Lemma same_mv_flush b ki kd v : on_multi ki kd v -> same_as (fun r => on_multi ki kd (snd r)) (mv_flush_p b v) (mv_flush b v).
Proof.
  intros (H1 & H2). unfold mv_flush_p, mv_flush. apply same_lift. intros n _. apply same_lift. intros d _.
  eapply same_bind; [apply same_handle_write; exact H2|]. intros [[u|x] h] Hh; cbn [snd] in Hh.
  - apply same_lift. intros f _. apply same_ret. split; auto.
  - apply same_ret. split; auto.
Qed.
Lemma same_mv_add_to_index b e lim size bits ki kd v : on_multi ki kd v ->
  same_as (fun r => on_multi ki kd (snd r)) (mv_add_to_index_p b e lim size bits v) (mv_add_to_index b e lim size bits v).
Proof.
  intros (H1 & H2). unfold mv_add_to_index_p, mv_add_to_index. eapply same_bind; [apply same_ev_grow; exact H1|].
  intros [[p|x] i] Hi; cbn [snd] in Hi.
  - apply same_lift. intros y _. apply same_lift. intros z _. eapply same_bind; [apply same_ev_set; exact Hi|]. intros i2 Hi2.
    apply same_ret. split; auto.
  - apply same_ret. split; auto.
Qed.
Lemma same_mv_grow b e lim size bits ki kd v : on_multi ki kd v ->
  same_as (fun r => on_multi ki kd (snd r)) (mv_grow_p b e lim size bits v) (mv_grow b e lim size bits v).
Proof.
  intros H. unfold mv_grow_p, mv_grow. apply (same_bind (fun r => on_multi ki kd (snd r))).
  - destruct (lim <? len (mv_data v)); [apply same_mv_flush; auto|apply same_ret; auto].
  - intros [[u|x] v1] H1; [apply same_mv_add_to_index; auto|apply same_ret; auto].
Qed.
Lemma same_mv_drop v : same_as (fun _ => True) (mv_drop_p v) (mv_drop v).
Proof. intros w. split; auto. unfold mv_drop_p, mv_drop. destruct (_ || _); reflexivity. Qed.
Lemma same_mv_fill b e lim size bits ts ki kd els : forall v, on_multi ki kd v ->
  same_as (fun r => match r with Ok v => on_multi ki kd v | Er _ => True end)
    (mv_fill_p b e lim size bits ts els v) (mv_fill b e lim size bits ts els v).
Proof.
  induction els as [|items els IH]; intros v H; cbn [mv_fill_p mv_fill]; [apply same_ret; auto|].
  eapply same_bind; [apply same_mv_grow; exact H|]. intros [[p|x] v1] H1; cbn [snd] in H1.
  - apply (same_bind (on_multi ki kd)); [|exact IH]. apply same_lift. intros d _. apply same_ret. exact H1.
  - eapply same_bind; [apply same_mv_drop|]. intros _ _. apply same_ret. auto.
Qed.
Lemma same_mv_finish b e lim size bits ki kd v : on_multi ki kd v ->
  same_as (fun _ => True) (mv_finish_p b e lim size bits v) (mv_finish b e lim size bits v).
Proof.
  intros H. unfold mv_finish_p, mv_finish. cbv zeta. eapply same_bind; [apply same_mv_add_to_index; exact H|].
  intros [[u|x] v1] H1; cbn [snd] in H1; [|eapply same_bind; [apply same_mv_drop|]; intros _ _; apply same_ret; auto].
  eapply same_bind; [apply same_mv_flush; exact H1|].
  intros [[u2|x] v2] H2; cbn [snd] in H2; [|eapply same_bind; [apply same_mv_drop|]; intros _ _; apply same_ret; auto].
  destruct H2 as (H2 & H3). eapply same_bind; [eapply same_ev_finish; exact H2|]. intros [u3|x] _.
  - eapply same_bind; [eapply same_finish_handle; exact H3|]. intros r _. eapply same_bind; [apply same_drop|]. intros _ _. apply same_ret. auto.
  - eapply same_bind; [apply same_drop|]. intros _ _. apply same_ret. auto.
Qed.
Lemma same_multi b e lim size bits ts base name schema els :
  same_as (fun _ => True) (multi_p b e lim size bits ts base name schema els) (multi_session b e lim size bits ts (FileStorage 0 base) name schema els).
Proof.
  unfold multi_p, multi_session.
  apply (same_try _ (on_multi (res_key (FileStorage 0 base) (index_name name)) (res_key (FileStorage 0 base) name))); [| |auto].
  - assert (Y : same_as (fun r => match r with Ok v => on_multi (res_key (FileStorage 0 base) (index_name name)) (res_key (FileStorage 0 base) name) v | Er _ => True end)
      (create_multi_p b e base name schema)
      (mtry (fun k => k) (create_handle b e (FileStorage 0 base) (index_name name) (index_schema schema)) (fun i =>
        let! r := create_handle b e (FileStorage 0 base) name schema in
        match r with
        | Er k => let! _ := handle_drop false i in mret (Er k)
        | Ok h => mret (Ok (mv_new (ev_new i) h))
        end))).
    { unfold create_multi_p. eapply same_try; [apply same_create_handle| |auto]. intros i Hi.
      eapply same_bind; [apply same_create_handle|]. intros [h|x] Hh.
      - apply same_ret. split; auto.
      - eapply same_bind; [apply same_drop|]. intros _ _. apply same_ret. auto. }
    assert (Z : forall w, create_multi_vector b e (FileStorage 0 base) name schema w =
      (mtry (fun k => k) (create_handle b e (FileStorage 0 base) (index_name name) (index_schema schema)) (fun i =>
        let! r := create_handle b e (FileStorage 0 base) name schema in
        match r with
        | Er k => let! _ := handle_drop false i in mret (Er k)
        | Ok h => mret (Ok (mv_new (ev_new i) h))
        end)) w).
    { intros w. unfold create_multi_vector, create_external_vector, mtry, mbind.
      destruct (create_handle b e (FileStorage 0 base) (index_name name) (index_schema schema) w) as [[[i|x]| | |] w1]; reflexivity. }
    intros w. rewrite Z. apply Y.
  - intros v Hv. eapply same_try; [apply same_mv_fill; exact Hv| |auto]. intros v1 H1. eapply same_mv_finish; exact H1.
Qed.
Lemma interp_job j w : interp (job_p j) w = job_m j w.
Proof.
  destruct j; cbn [job_p job_m].
  - apply interp_try; [apply interp_write|reflexivity].
  - apply interp_create.
  - apply interp_try; [apply interp_stream|reflexivity].
  - apply same_vector.
  - apply same_multi.
Qed.
Lemma interp_jobs js : forall w, interp (jobs_p js) w = jobs_m js w.
Proof.
  induction js as [|j js IH]; intros w; [reflexivity|]. cbn [jobs_p jobs_m]. apply interp_try; [apply interp_job|]. intros _ w'. apply IH.
Qed.

(** * The contents several writers leave *)
Lemma splice_len p d c : 0 <= p -> len (splice p d c) = Z.max (len c) (p + len d).
Proof.
  intros H. unfold splice, zeros, len. rewrite !app_length, firstn_length, repeat_length, skipn_length. lia.
Qed.
Lemma splice_nth p d c i : 0 <= p ->
  nth i (splice p d c) 0 =
    if (i <? Z.to_nat p)%nat then nth i c 0
    else if (i <? Z.to_nat p + length d)%nat then nth (i - Z.to_nat p) d 0 else nth i c 0.
Proof.
  intros H1. unfold splice, zeros. destruct (Nat.ltb_spec i (Z.to_nat p)).
  - destruct (Nat.lt_ge_cases i (length c)).
    + rewrite app_nth1 by (rewrite firstn_length; lia). apply nth_firstn_lt; lia.
    + rewrite app_nth2 by (rewrite firstn_length; lia). rewrite (nth_overflow c) by lia.
      rewrite app_nth1; [apply nth_repeat|]. rewrite repeat_length, firstn_length. unfold len. lia.
  - assert (L : (length (firstn (Z.to_nat p) c) + length (repeat 0%Z (Z.to_nat (p - len c))) = Z.to_nat p)%nat)
      by (rewrite firstn_length, repeat_length; unfold len; lia).
    rewrite app_assoc, app_nth2 by (rewrite app_length, L; exact H). rewrite app_length, L.
    destruct (Nat.ltb_spec i (Z.to_nat p + length d)).
    + apply app_nth1. lia.
    + rewrite app_nth2 by lia. rewrite nth_skipn_add. f_equal. lia.
Qed.

Lemma splice_parts p d j c : 0 <= p <= len c -> (j <= length d)%nat ->
  splice (p + Z.of_nat j) (skipn j d) (splice p (firstn j d) c) = splice p d c.
Proof.
  intros H Hj. assert (L1 := splice_len p (firstn j d) c ltac:(lia)).
  assert (Lf : length (firstn j d) = j) by (rewrite firstn_length; lia).
  assert (Ls : length (skipn j d) = (length d - j)%nat) by apply skipn_length.
  assert (L2 := splice_len (p + Z.of_nat j) (skipn j d) (splice p (firstn j d) c) ltac:(lia)).
  assert (L3 := splice_len p d c ltac:(lia)). unfold len in *.
  apply (nth_ext _ _ 0 0); [lia|]. intros i Hi. rewrite !splice_nth by lia. rewrite Lf, Ls.
  replace (Z.to_nat (p + Z.of_nat j)) with (Z.to_nat p + j)%nat by lia.
  destruct (Nat.ltb_spec i (Z.to_nat p + j)).
  - destruct (Nat.ltb_spec i (Z.to_nat p)); auto. destruct (Nat.ltb_spec i (Z.to_nat p + length d)); [|lia].
    apply nth_firstn_lt. lia.
  - destruct (Nat.ltb_spec i (Z.to_nat p)); [lia|].
    replace (Z.to_nat p + j + (length d - j))%nat with (Z.to_nat p + length d)%nat by lia.
    destruct (Nat.ltb_spec i (Z.to_nat p + length d)); auto.
    rewrite nth_skipn_add. f_equal. lia.
Qed.

(** * The state of one process *)
(** For every file that the process has created: what would be in it if nobody
    else had written to it since. *)
Definition own : Type := key -> option (list Z).
Definition none : own := fun _ => None.
Definition osame (g h : own) : Prop := forall k, g k = h k.
Lemma kupd_same_own k v (g h : own) : osame g h -> osame (kupd k v g) (kupd k v h).
Proof. intros H x. unfold kupd. destruct (key_eqb x k); auto. Qed.

Lemma prefix_shorter x k n : is_prefix_of x (fst k, firstn n (snd k)) = true -> is_prefix_of x k = true.
Proof.
  unfold is_prefix_of. cbn [fst snd]. intros H. apply andb_prop in H as [H1 H2]. rewrite H1. cbn [andb].
  apply comps_eqb_eq in H2. apply comps_eqb_eq. rewrite firstn_firstn in H2.
  assert (L := f_equal (@length _) H2). rewrite firstn_length in L.
  replace (Nat.min (length (snd x)) n) with (length (snd x)) in H2 by lia. exact H2.
Qed.

Section Pool.
Context {A : Type}.
(** The files and the directories of the storages that are used, whether a
    directory was there at the start, and what is known of a process that is
    done: the files it has seen and its contents. *)
Variables (F B : key -> Prop) (d0 : key -> bool).

(** [kd]: directories that the process has found or made; [sn]: files that it
    has found. *)
Inductive ok (post : list key -> own -> A -> Prop) : list key -> list key -> own -> prog A -> Prop :=
| ok_done kd sn g a : post sn g a -> ok post kd sn g (Done (Ret a))
| ok_look kd sn g k f : F k -> ok post kd (k :: sn) g (f true) -> ok post kd sn g (f false) -> ok post kd sn g (Stat k f)
| ok_base kd sn g k f : B k -> ok post (k :: kd) sn g (f true) -> (d0 k = false -> ~ In k kd -> ok post kd sn g (f false)) ->
    ok post kd sn g (Stat k f)
| ok_mkdirs kd sn g k f : B k -> d0 k = false -> ok post (k :: kd) sn g (f (Ok tt)) -> ok post kd sn g (MkDirs k f)
| ok_create kd sn g k f : F k -> In (parent k) kd -> ok post kd sn (kupd k (Some []) g) (f (Ok (SFile k 0))) ->
    ok post kd sn g (CreateFile k f)
| ok_seek kd sn g f : ok post kd sn g (f (Ok tt)) -> ok post kd sn g (Seek f)
| ok_put kd sn g k p d c f : F k -> g k = Some c -> 0 <= p <= len c ->
    ok post kd sn (kupd k (Some (splice p d c)) g) (f (Ok tt, SFile k (p + len d))) ->
    ok post kd sn g (PutAt k p d f).

Lemma ok_same (post : list key -> own -> A -> Prop) kd sn g h p : (forall sn g h a, osame g h -> post sn g a -> post sn h a) ->
  osame g h -> ok post kd sn g p -> ok post kd sn h p.
Proof.
  intros P S O. revert h S. induction O; intros h S.
  - apply ok_done. eauto.
  - apply ok_look; auto.
  - apply ok_base; auto.
  - apply ok_mkdirs; auto.
  - apply ok_create; auto. apply IHO, kupd_same_own. auto.
  - apply ok_seek; auto.
  - apply ok_put with (c := c); auto; [rewrite <- S; auto|]. apply IHO, kupd_same_own. auto.
Qed.


Hypothesis KB : forall k b, F k -> B b -> is_prefix_of k b = false.
Variable w0 : world.

Lemma above_other b n k : F k -> B b -> (fst b, firstn n (snd b)) <> k.
Proof.
  intros Hk Hb E. assert (X := KB k b Hk Hb). rewrite <- E in X. unfold is_prefix_of in X. simpl in X.
  rewrite eqb_reflx in X. simpl in X. rewrite firstn_length in X.
  destruct (Nat.le_gt_cases n (length (snd b))).
  - rewrite Nat.min_l in X by lia. rewrite (proj2 (comps_eqb_eq _ _)) in X; auto. discriminate.
  - rewrite Nat.min_r in X by lia. rewrite firstn_all in X. rewrite firstn_all2 in X by lia.
    rewrite (proj2 (comps_eqb_eq _ _)) in X; auto. discriminate.
Qed.

(** What holds of the disk throughout. *)
Definition disk_inv (w : world) : Prop :=
  (forall k, F k -> is_dir k w = false) /\
  (forall b, d0 b = true -> is_dir b w = true) /\
  (forall b n, B b -> d0 b = false -> w_files w (fst b, firstn n (snd b)) = None) /\
  forall k, ~ F k -> w_files w k = w_files w0 k.
(** What a process knows is true. *)
Definition sound (w : world) (kd sn : list key) : Prop :=
  (forall b, In b kd -> is_dir b w = true) /\ (forall k, In k sn -> w_files w k <> None).

(** What a step does to the files: nothing, or a change of one of them. *)
Inductive moved (w w' : world) : own -> own -> Prop :=
| mv_none g : w_files w' = w_files w -> moved w w' g g
| mv_create g k : F k -> w_files w' = kupd k (Some []) (w_files w) -> moved w w' g (kupd k (Some []) g)
| mv_put g k p d c : F k -> g k = Some c -> 0 <= p <= len c -> d <> [] ->
    w_files w' = kupd k (Some (splice p d (file_content k w))) (w_files w) ->
    moved w w' g (kupd k (Some (splice p d c)) g).
Definition dirs_grow (w w' : world) : Prop := forall k, is_dir k w = true -> is_dir k w' = true.

Lemma moved_present w w' g g' k : moved w w' g g' -> w_files w k <> None -> w_files w' k <> None.
Proof.
  intros [? E|? i _ E|? i p d z _ _ _ _ E] H; rewrite E; auto; unfold kupd; destruct (key_eqb k i); auto; discriminate.
Qed.
Lemma moved_elsewhere w w' g g' k : moved w w' g g' -> ~ F k -> w_files w' k = w_files w k.
Proof.
  intros [? E|? i Hi E|? i p d z Hi _ _ _ E] H; rewrite E; auto; apply kupd_other; intros ->; auto.
Qed.
Lemma sound_moved w w' g g' kd sn : moved w w' g g' -> dirs_grow w w' -> sound w kd sn -> sound w' kd sn.
Proof. intros M D (S1 & S2). split; [auto|]. intros k Hk. eapply moved_present; eauto. Qed.
Lemma disk_moved w w' g g' : moved w w' g g' -> w_dirs w' = w_dirs w -> disk_inv w -> disk_inv w'.
Proof.
  intros M D (I1 & I2 & I3 & I4). unfold disk_inv, is_dir in *.
  split; [intros k Hk; rewrite D; auto|]. split; [intros b Hb; rewrite D; auto|]. split.
  - intros b n Hb Hd. rewrite (moved_elsewhere _ _ _ _ _ M); [auto|]. intros Hf. exact (above_other b n _ Hf Hb eq_refl).
  - intros k Hk. rewrite (moved_elsewhere _ _ _ _ _ M); auto.
Qed.

Lemma pstep_ok (post : list key -> own -> A -> Prop) w p w' p' kd sn g : (forall sn g h a, osame g h -> post sn g a -> post sn h a) ->
  pstep w p w' p' -> ok post kd sn g p -> disk_inv w -> sound w kd sn ->
  exists kd' sn' g', ok post kd' sn' g' p' /\ moved w w' g g' /\ dirs_grow w w' /\ disk_inv w' /\ sound w' kd' sn'.
Proof.
  intros Pp S O I Sd. assert (I' := I). destruct I' as (I1 & I2 & I3 & I4). assert (Sd' := Sd). destruct Sd' as (S1 & S2).
  assert (NM : forall g, moved w w g g) by (intros; apply mv_none; auto).
  assert (ND : dirs_grow w w) by (intros ? ?; auto).
  destruct S as [w k f|w k f r w' E|w k f n Hm Hn|w k f r w' E|w f|w k q d f j Hj|w k q f].
  - inversion O as [|? ? ? ? ? Fk Ot Of|? ? ? ? ? Bk Ot Of| | | |]; subst.
    + destruct (on_disk k w) eqn:E; [exists kd, (k :: sn), g|exists kd, sn, g]; (split; [assumption|split; [auto|split; [auto|split; [auto|]]]]); auto.
      split; auto. intros x [<-|Hx]; auto. specialize (I1 k Fk). unfold on_disk in E. unfold is_dir in I1.
      destruct (w_files w k); congruence.
    + destruct (is_dir k w) eqn:E.
      * assert (Eo : on_disk k w = true) by (unfold on_disk, is_dir in *; destruct (w_files w k); auto).
        rewrite Eo. exists (k :: kd), sn, g. split; [assumption|]. split; [auto|]. split; [auto|]. split; [auto|]. split; [|auto]. intros b [<-|Hb]; auto.
      * assert (Hd : d0 k = false) by (destruct (d0 k) eqn:X; auto; rewrite (I2 k X) in E; discriminate).
        assert (N := I3 k (length (snd k)) Bk Hd). rewrite firstn_all in N. rewrite <- surjective_pairing in N.
        assert (Eo : on_disk k w = false) by (unfold on_disk, is_dir in *; rewrite N; auto).
        rewrite Eo. exists kd, sn, g. split; [|auto]. apply Of; auto. intros Hk. rewrite (S1 k Hk) in E. discriminate.
  - inversion O as [| | |? ? ? ? ? Bk Hd Ot| | |]; subst. apply create_dir_all_cases in E. destruct E as (_ & Ef & [(R & D & W)|(R & _ & X)]).
    2: { exfalso. apply X; [reflexivity|]. intros n. apply I3; auto. }
    injection R as ->. change (w_files w' = w_files w) in Ef. exists (k :: kd), sn, g.
    assert (G : dirs_grow w w').
    { intros x. unfold is_dir. rewrite W. simpl. intros H. apply orb_true_iff in H. destruct H as [H|H]; rewrite H; rewrite ?orb_true_r; auto. }
    assert (M : moved w w' g g) by (constructor; exact Ef).
    split; [assumption|]. split; [exact M|]. split; [exact G|]. split.
    + split; [|split; [intros b Hb; apply G; auto|rewrite Ef; auto]].
      intros x Hx. unfold is_dir. rewrite W. simpl. rewrite (KB x k) by auto. rewrite orb_false_r. apply I1. auto.
    + split; [intros b [<-|Hb]; auto|]. rewrite Ef. auto.
  - inversion O as [| | |? ? ? ? ? Bk Hd Ot| | |]; subst. exists kd, sn, g.
    set (w' := set_dirs _ w).
    assert (G : dirs_grow w w').
    { intros x. unfold is_dir, w'. simpl. intros H. apply orb_true_iff in H. destruct H as [H|H]; rewrite H; rewrite ?orb_true_r; auto. }
    assert (M : moved w w' g g) by (constructor; reflexivity).
    split; [assumption|]. split; [exact M|]. split; [exact G|]. split.
    + split; [|split; [intros b Hb; apply G; auto|auto]].
      intros x Hx. unfold is_dir, w'. cbn [set_dirs w_dirs].
      destruct (is_prefix_of x (fst k, firstn n (snd k))) eqn:E.
      * apply prefix_shorter in E. rewrite (KB x k) in E by auto. discriminate.
      * rewrite orb_false_r. apply I1. auto.
    + split; auto.
  - inversion O as [| | | |? ? ? ? ? Fk Hp Ot| |]; subst. apply file_create_cases in E. destruct E as (w1 & _ & Ef & D & [(R & _ & _ & W)|(R & _ & X)]).
    2: { exfalso. apply X; [reflexivity|apply I1; auto|]. apply S1; auto. }
    injection R as ->. exists kd, sn, (kupd k (Some []) g).
    assert (M : moved w w' g (kupd k (Some []) g)) by (apply mv_create; auto; rewrite W; simpl; rewrite Ef; reflexivity).
    assert (Dd : w_dirs w' = w_dirs w) by (rewrite W; simpl; rewrite D; reflexivity).
    assert (G : dirs_grow w w') by (intros x; unfold is_dir; rewrite Dd; auto).
    split; [assumption|]. split; [exact M|]. split; [exact G|]. split; [eapply disk_moved; eauto|eapply sound_moved; eauto].
  - inversion O; subst. exists kd, sn, g. auto.
  - inversion O as [| | | | | |? ? ? ? ? ? c ? Fk Hg Hp Ot]; subst.
    assert (Nd : firstn j d <> []) by (destruct d, j; simpl in *; try lia; discriminate).
    assert (Lf : len (firstn j d) = Z.of_nat j) by (unfold len; rewrite firstn_length; lia).
    exists kd, sn, (kupd k (Some (splice q (firstn j d) c)) g).
    assert (M : moved w (file_write k q (firstn j d) w) g (kupd k (Some (splice q (firstn j d) c)) g))
      by (apply mv_put; auto).
    assert (G : dirs_grow w (file_write k q (firstn j d) w)) by (intros x; auto).
    split; [|split; [exact M|split; [exact G|split; [eapply disk_moved; eauto|eapply sound_moved; eauto]]]].
    apply ok_put with (c := splice q (firstn j d) c); auto.
    + apply kupd_same.
    + rewrite splice_len by lia. lia.
    + rewrite splice_parts by lia.
      replace (q + Z.of_nat j + len (skipn j d)) with (q + len d).
      * eapply ok_same; [exact Pp| |exact Ot]. intros x. unfold kupd. destruct (key_eqb x k); auto.
      * unfold len. rewrite skipn_length. lia.
  - inversion O as [| | | | | |? ? ? ? ? ? c ? Fk Hg Hp Ot]; subst. exists kd, sn, g.
    split; [|auto]. rewrite splice_nil in Ot by lia. unfold len in Ot. simpl in Ot. rewrite Z.add_0_r in Ot.
    eapply ok_same; [exact Pp| |exact Ot]. intros x. unfold kupd. destruct (key_eqb x k) eqn:E; auto.
    apply key_eqb_eq in E. subst. auto.
Qed.

(** * All processes *)
Record pstate := mkState { s_post : list key -> own -> A -> Prop; s_kd : list key; s_sn : list key; s_own : own }.
(** Nobody has created the file, or somebody did (the process [x] is the one that
    did so last) and every byte is what some process left there, or 0 and
    behind what [x] has written. *)
Definition file_inv (w : world) (ss : list pstate) (k : key) : Prop :=
  ((forall s, In s ss -> s_own s k = None) /\ w_files w k = w_files w0 k) \/
  exists x cx c, In x ss /\ s_own x k = Some cx /\ w_files w k = Some c /\ (length cx <= length c)%nat /\
    forall i, (i < length c)%nat -> exists y cy, In y ss /\ s_own y k = Some cy /\ (i < length cy)%nat /\
      (nth i c 0 = nth i cy 0 \/ nth i c 0 = 0 /\ (length cx <= i)%nat).
Definition proc_inv (w : world) (s : pstate) (p : prog A) : Prop :=
  (forall sn g h a, osame g h -> s_post s sn g a -> s_post s sn h a) /\
  ok (s_post s) (s_kd s) (s_sn s) (s_own s) p /\ sound w (s_kd s) (s_sn s).
Definition pool_inv (posts : list (list key -> own -> A -> Prop)) (w : world) (ss : list pstate) (l : list (prog A)) : Prop :=
  map s_post ss = posts /\ Forall2 (proc_inv w) ss l /\ disk_inv w /\ forall k, file_inv w ss k.

Lemma in_mid (s s' : pstate) s1 s2 x : In x (s1 ++ s :: s2) -> x = s \/ In x (s1 ++ s' :: s2).
Proof. rewrite !in_app_iff. simpl. intros [H|[H|H]]; auto. Qed.
Lemma in_here (s : pstate) s1 s2 : In s (s1 ++ s :: s2).
Proof. rewrite in_app_iff. simpl. auto. Qed.

Lemma file_inv_same w w' s1 s s' s2 k : w_files w' k = w_files w k -> s_own s' k = s_own s k ->
  file_inv w (s1 ++ s :: s2) k -> file_inv w' (s1 ++ s' :: s2) k.
Proof.
  intros E Eo [(H1 & H2)|(x & cx & c & Hx & Hcx & Hc & Hl & Hi)].
  - left. rewrite E. split; auto. intros y Hy. destruct (in_mid s' s _ _ _ Hy) as [->|Hy']; auto.
    rewrite Eo. apply H1. apply in_here.
  - assert (W : forall y cy, In y (s1 ++ s :: s2) -> s_own y k = Some cy ->
      exists y', In y' (s1 ++ s' :: s2) /\ s_own y' k = Some cy).
    { intros y cy Hy Hcy. destruct (in_mid s s' _ _ _ Hy) as [->|Hy']; [|eauto].
      exists s'. split; [apply in_here|congruence]. }
    destruct (W x cx Hx Hcx) as (x' & Hx' & Hcx'). right. exists x', cx, c. rewrite E.
    split; auto. split; auto. split; auto. split; auto.
    intros i Li. destruct (Hi i Li) as (y & cy & Hy & Hcy & R). destruct (W y cy Hy Hcy) as (y' & Hy' & Hcy').
    exists y', cy. auto.
Qed.
Lemma file_inv_move w w' s1 s s' s2 k : moved w w' (s_own s) (s_own s') ->
  file_inv w (s1 ++ s :: s2) k -> file_inv w' (s1 ++ s' :: s2) k.
Proof.
  intros M H. inversion M as [g E Eg Eg'|g j Fj E Eg Eg'|g j p d cs Fj Hg Hp Nd E Eg Eg'].
  - eapply file_inv_same; [| |exact H]; [rewrite E; reflexivity|]. rewrite <- Eg', <- Eg. reflexivity.
  - destruct (key_eq_dec k j) as [->|N].
    + right. exists s', [], []. split; [apply in_here|]. split; [rewrite <- Eg'; apply kupd_same|].
      rewrite E, kupd_same. split; auto. split; auto. simpl. intros; lia.
    + eapply file_inv_same; [| |exact H]; [rewrite E; apply kupd_other; auto|]. rewrite <- Eg'. apply kupd_other. auto.
  - destruct (key_eq_dec k j) as [->|N].
    2: { eapply file_inv_same; [| |exact H]; [rewrite E; apply kupd_other; auto|]. rewrite <- Eg'. apply kupd_other. auto. }
    destruct H as [(H1 & H2)|(x & cx & c & Hx & Hcx & Hc & Hl & Hi)].
    { exfalso. rewrite H1 in Hg by apply in_here. discriminate. }
    assert (Es : s_own s' j = Some (splice p d cs)) by (rewrite <- Eg'; apply kupd_same).
    assert (Ef : file_content j w = c) by (unfold file_content; rewrite Hc; auto). rewrite Ef in E.
    assert (Lc := splice_len p d c ltac:(lia)). assert (Ls := splice_len p d cs ltac:(lia)). unfold len in Lc, Ls, Hp.
    right.
    (* the last creator afterwards *)
    assert (W : exists x' cx', In x' (s1 ++ s' :: s2) /\ s_own x' j = Some cx' /\ (length cx' <= length (splice p d c))%nat /\
      (length cx <= length cx')%nat /\
      (forall i, (length cx <= i < length cx')%nat -> (Z.to_nat p <= i < Z.to_nat p + length d)%nat) /\
      (Z.to_nat p <= length c \/ length cx' <= length c)%nat).
    { destruct (in_mid s s' _ _ _ Hx) as [->|Hx'].
      - assert (cx = cs) by congruence. subst cx. exists s', (splice p d cs). split; [apply in_here|].
        split; auto. repeat split; try lia.
      - exists x, cx. repeat split; auto; try lia. }
    destruct W as (x' & cx' & Hx' & Hcx' & W1 & W2 & W3 & W4).
    exists x', cx', (splice p d c). split; auto. split; auto. rewrite E, kupd_same. split; auto. split; auto.
    intros i Li. rewrite splice_nth by lia.
    destruct (Nat.ltb_spec i (Z.to_nat p)) as [Lp|Lp]; [|destruct (Nat.ltb_spec i (Z.to_nat p + length d)) as [Lq|Lq]].
    + destruct (Nat.lt_ge_cases i (length c)) as [Lo|Lo].
      * destruct (Hi i Lo) as (y & cy & Hy & Hcy & Ly & V).
        assert (V' : nth i c 0 = nth i cy 0 \/ nth i c 0 = 0 /\ (length cx' <= i)%nat).
        { destruct V as [V|(V1 & V2)]; auto. right. split; auto.
          destruct (Nat.lt_ge_cases i (length cx')) as [L|L]; auto. specialize (W3 i ltac:(lia)). lia. }
        destruct (in_mid s s' _ _ _ Hy) as [->|Hy']; [|exists y, cy; auto].
        assert (cy = cs) by congruence. subst cy. exists s', (splice p d cs). split; [apply in_here|]. split; auto.
        split; [lia|]. rewrite splice_nth by lia. destruct (Nat.ltb_spec i (Z.to_nat p)); [auto|lia].
      * exists s', (splice p d cs). split; [apply in_here|]. split; auto. split; [lia|]. right.
        split; [apply nth_overflow; auto|]. lia.
    + exists s', (splice p d cs). split; [apply in_here|]. split; auto. split; [lia|]. left.
      rewrite splice_nth by lia. destruct (Nat.ltb_spec i (Z.to_nat p)); [lia|].
      destruct (Nat.ltb_spec i (Z.to_nat p + length d)); [auto|lia].
    + assert (Lo : (i < length c)%nat) by lia. destruct (Hi i Lo) as (y & cy & Hy & Hcy & Ly & V).
      assert (V' : nth i c 0 = nth i cy 0 \/ nth i c 0 = 0 /\ (length cx' <= i)%nat).
      { destruct V as [V|(V1 & V2)]; auto. right. split; auto.
        destruct (Nat.lt_ge_cases i (length cx')) as [L|L]; auto. specialize (W3 i ltac:(lia)). lia. }
      destruct (in_mid s s' _ _ _ Hy) as [->|Hy']; [|exists y, cy; auto].
      assert (cy = cs) by congruence. subst cy. exists s', (splice p d cs). split; [apply in_here|]. split; auto.
      split; [lia|]. rewrite splice_nth by lia. destruct (Nat.ltb_spec i (Z.to_nat p)); [lia|].
      destruct (Nat.ltb_spec i (Z.to_nat p + length d)); [lia|auto].
Qed.

Lemma pool_step_inv posts w l w' l' ss : pool_step w l w' l' -> pool_inv posts w ss l -> exists ss', pool_inv posts w' ss' l'.
Proof.
  intros S (H0 & H1 & H2 & H3). destruct S as [w w' l1 p p' l2 S].
  apply Forall2_app_inv_r in H1. destruct H1 as (s1 & s2' & Ha & Hb & ->).
  inversion Hb as [|s p0 s2 l0 (Hx & Ho & Hs) Hc]; subst.
  destruct (pstep_ok _ _ _ _ _ _ _ _ Hx S Ho H2 Hs) as (kd & sn & g & O' & M & G & I' & S').
  exists (s1 ++ mkState (s_post s) kd sn g :: s2).
  assert (Hk : forall ss l, Forall2 (proc_inv w) ss l -> Forall2 (proc_inv w') ss l).
  { intros ss l R. induction R as [|x y ss l (X1 & X2 & X3) R IH]; constructor; auto. split; auto. split; auto. eapply sound_moved; eauto. }
  split; [rewrite !map_app; reflexivity|].
  split; [apply Forall2_app; auto; constructor; auto; split; [exact Hx|]; split; auto|].
  split; [exact I'|]. intros k. eapply file_inv_move; eauto.
Qed.
Lemma pool_run_inv posts w l w' l' : pool_run w l w' l' -> forall ss, pool_inv posts w ss l -> exists ss', pool_inv posts w' ss' l'.
Proof.
  intros R. induction R as [w l|w l w1 l1 w2 l2 S R IH]; intros ss H; eauto.
  destruct (pool_step_inv _ _ _ _ _ _ S H) as (s1 & H1). eauto.
Qed.

Lemma start_inv posts l :
  Forall2 (fun (post : list key -> own -> A -> Prop) p => (forall sn g h a, osame g h -> post sn g a -> post sn h a) /\ ok post [] [] none p) posts l ->
  disk_inv w0 -> pool_inv posts w0 (map (fun post => mkState post [] [] none) posts) l.
Proof.
  intros H I. split; [rewrite map_map; apply map_id|]. split; [|split; [exact I|]].
  - induction H as [|post p posts l (X & O) H IH]; simpl; constructor; auto. split; [exact X|]. split; [exact O|].
    split; intros ? [].
  - intros k. left. split; auto. intros s Hs. apply in_map_iff in Hs. destruct Hs as (x & <- & _). reflexivity.
Qed.
End Pool.

Lemma pool_run_length {A} w (l : list (prog A)) w' l' : pool_run w l w' l' -> length l' = length l.
Proof.
  intros R. induction R as [|w l w1 l1 w2 l2 S R IH]; auto. rewrite IH. inversion S; subst.
  rewrite !app_length. reflexivity.
Qed.

(** * Every run ends *)
Lemma create_dir_all_ret k w : exists r w', create_dir_all k (set_faults [] w) = (Ret r, w').
Proof. unfold create_dir_all, syscall. simpl. destruct (file_on_path _ _); eauto. Qed.
Lemma file_create_ret k w : exists r w', file_create k (set_faults [] w) = (Ret r, w').
Proof. unfold file_create, syscall. simpl. destruct (is_dir _ _); eauto. destruct (is_dir _ _); eauto. Qed.

(** A program that is not done can go on. *)
Lemma can_step {A} (p : prog A) w : (exists o, p = Done o) \/ exists w' p', pstep w p w' p'.
Proof.
  destruct p as [o|k f|k f|k f|f|k q d f]; [eauto|right..].
  - eexists _, _. constructor.
  - destruct (create_dir_all_ret k w) as (r & w' & R). eexists _, _. econstructor; eauto.
  - destruct (file_create_ret k w) as (r & w' & R). eexists _, _. econstructor; eauto.
  - eexists _, _. constructor.
  - destruct d as [|x d]; eexists _, _; [apply step_put_done|]. apply step_put with (j := 1%nat). simpl. lia.
Qed.
Lemma pool_can_step {A} (l : list (prog A)) w : (exists os, l = map Done os) \/ exists w' l', pool_step w l w' l'.
Proof.
  induction l as [|p l IH]; [left; exists []; reflexivity|].
  destruct (can_step p w) as [(o & ->)|(w' & p' & S)].
  - destruct IH as [(os & ->)|(w' & l' & S)]; [left; exists (o :: os); reflexivity|right].
    inversion S as [? ? l1 q q' l2 Hs]; subst. exists w', (Done o :: l1 ++ q' :: l2).
    apply (pool_move w w' (Done o :: l1) q q' l2 Hs).
  - right. exists w', (p' :: l). apply (pool_move w w' [] p p' l S).
Qed.

(** No program runs for ever: a step takes a program to a part of it, or makes a
    directory that the program needs. *)
Definition missing_on (w : world) (k : key) : nat :=
  length (filter (fun n => negb (is_dir (fst k, firstn n (snd k)) w)) (seq 0 (S (length (snd k))))).
Definition missing {A} (w : world) (p : prog A) : nat := match p with MkDirs k _ => missing_on w k | _ => 0 end.
Definition missings {A} (w : world) (l : list (prog A)) : nat := list_sum (map (missing w) l).
Inductive pless {A} : prog A -> prog A -> Prop :=
| pl_stat k f x : pless (f x) (Stat k f)
| pl_mkdirs k f r : pless (f r) (MkDirs k f)
| pl_create k f r : pless (f r) (CreateFile k f)
| pl_seek f r : pless (f r) (Seek f)
| pl_part k q d f q' d' : (length d' < length d)%nat -> pless (PutAt k q' d' f) (PutAt k q d f)
| pl_put k q d f r : pless (f r) (PutAt k q d f)
| pl_dead p : (forall o, p <> Done o) -> pless (Done Crash) p.
Lemma pless_acc {A} (p : prog A) : Acc pless p.
Proof.
  assert (D : forall o : outcome A, Acc pless (Done o)).
  { intros o. constructor. intros p' S. inversion S as [| | | | | |? X]; subst. destruct (X o eq_refl). }
  induction p as [o|k f IH|k f IH|k f IH|f IH|k q d f IH]; auto; try (constructor; intros p' S; inversion S; subst; auto; fail).
  remember (length d) as n eqn:En. revert q d En. induction n as [n IHn] using lt_wf_ind. intros q d ->.
  constructor. intros p' S. inversion S; subst; auto. eapply IHn; [eassumption|reflexivity].
Qed.
Lemma filter_le {X} (f g : X -> bool) l : (forall x, f x = true -> g x = true) ->
  (length (filter f l) <= length (filter g l))%nat.
Proof.
  intros H. induction l as [|x l IH]; cbn [filter]; auto.
  destruct (f x) eqn:E; [rewrite (H x E); cbn [length]; lia|].
  destruct (g x); cbn [length]; lia.
Qed.
Lemma filter_lt {X} (f g : X -> bool) l : (forall x, f x = true -> g x = true) ->
  (exists x, In x l /\ f x = false /\ g x = true) ->
  (length (filter f l) < length (filter g l))%nat.
Proof.
  intros H (y & Hy & F & G). induction l as [|x l IH]; [destruct Hy|]. cbn [filter].
  assert (L := filter_le f g l H). destruct Hy as [->|Hy].
  - rewrite F, G. cbn [length]. lia.
  - specialize (IH Hy). destruct (f x) eqn:E; [rewrite (H x E); cbn [length]; lia|].
    destruct (g x); cbn [length]; lia.
Qed.
(** The two kinds of steps. *)
Lemma step_kinds {A} w (p : prog A) w' p' : pstep w p w' p' ->
  pless p' p \/
  p' = p /\ (missing w' p < missing w p)%nat /\ forall k, (missing_on w' k <= missing_on w k)%nat.
Proof.
  intros S. destruct S as [w k f|w k f r w' E|w k f n Hm Hn|w k f r w' E|w f|w k q d f j Hj|w k q f];
    try (left; constructor; rewrite ?skipn_length; lia); try (left; constructor; fail).
  - right. split; [reflexivity|].
    assert (G : forall x, negb (is_dir x (set_dirs (fun x => w_dirs w x || is_prefix_of x (fst k, firstn n (snd k))) w)) = true ->
      negb (is_dir x w) = true).
    { intros x. unfold is_dir. cbn [set_dirs w_dirs]. destruct (w_dirs w x); auto.
      destruct (length (snd x) =? 0)%nat; [rewrite !orb_true_r|]; auto. }
    split.
    + cbn [missing]. unfold missing_on. apply filter_lt; [intros x; apply G|].
      exists (Nat.min n (length (snd k))). split; [apply in_seq; lia|].
      replace (firstn (Nat.min n (length (snd k))) (snd k)) with (firstn n (snd k)).
      * rewrite Hm. split; [|reflexivity]. unfold is_dir. cbn [set_dirs w_dirs].
        rewrite is_prefix_of_refl, orb_true_r. reflexivity.
      * destruct (Nat.min_spec n (length (snd k))) as [[L ->]|[L ->]]; auto.
        rewrite firstn_all. apply firstn_all2. lia.
    + intros x. apply filter_le. intros m. apply G.
Qed.
Inductive lless {A} : list (prog A) -> list (prog A) -> Prop :=
| ll_here p p' l : pless p' p -> lless (p' :: l) (p :: l)
| ll_there p l l' : lless l' l -> lless (p :: l') (p :: l).
Lemma lless_acc {A} (l : list (prog A)) : Acc lless l.
Proof.
  induction l as [|p l IH]; [constructor; intros l' S; inversion S|].
  assert (P := pless_acc p). revert p P. induction IH as [l Hl IHl]. intros p P. induction P as [p Hp IHp].
  constructor. intros l' S. inversion S; subst; auto. apply IHl; auto. constructor. auto.
Qed.
Lemma missings_le {A} w w' (l : list (prog A)) : (forall k, (missing_on w' k <= missing_on w k)%nat) ->
  (missings w' l <= missings w l)%nat.
Proof.
  intros H. unfold missings. induction l as [|p l IH]; cbn [map list_sum fold_right]; auto.
  change (fold_right Nat.add 0%nat) with list_sum.
  assert (missing w' p <= missing w p)%nat by (destruct p; cbn [missing]; auto). unfold list_sum in *. lia.
Qed.
Lemma pool_kinds {A} w (l : list (prog A)) w' l' : pool_step w l w' l' ->
  lless l' l \/ l' = l /\ (missings w' l < missings w l)%nat.
Proof.
  intros S. inversion S as [? ? l1 p p' l2 Hs]; subst. destruct (step_kinds _ _ _ _ Hs) as [H|(-> & H1 & H2)].
  - left. clear - H. induction l1 as [|x l1 IH]; simpl; constructor; auto.
  - right. split; [reflexivity|]. clear - H1 H2.
    assert (L1 := missings_le w w' l1 H2). assert (L2 := missings_le w w' l2 H2).
    unfold missings in *. rewrite !map_app. cbn [map]. rewrite !list_sum_app.
    change (list_sum (missing w' p :: map (missing w') l2)) with (missing w' p + list_sum (map (missing w') l2))%nat.
    change (list_sum (missing w p :: map (missing w) l2)) with (missing w p + list_sum (map (missing w) l2))%nat. lia.
Qed.
(** Induction over the runs of processes. *)
Lemma pool_rec {A} (P : list (prog A) -> world -> Prop) :
  (forall l w, (forall w' l', pool_step w l w' l' -> P l' w') -> P l w) -> forall l w, P l w.
Proof.
  intros H l. assert (Hl := lless_acc l). induction Hl as [l _ IH].
  intros w. remember (missings w l) as n eqn:En. revert w En. induction n as [n IHn] using lt_wf_ind. intros w ->.
  apply H. intros w' l' S. destruct (pool_kinds _ _ _ _ S) as [L|(-> & L)]; [apply IH; exact L|].
  eapply IHn; [exact L|reflexivity].
Qed.
Lemma pool_ends {A} (l : list (prog A)) w :
  ~ exists f : nat -> world * list (prog A), f 0%nat = (w, l) /\
      forall n, pool_step (fst (f n)) (snd (f n)) (fst (f (S n))) (snd (f (S n))).
Proof.
  revert l w. apply (pool_rec (fun l w => ~ exists f : nat -> world * list (prog A), f 0%nat = (w, l) /\ _)).
  intros l w IH (f & E & S). assert (S0 := S 0%nat). rewrite E in S0. apply (IH _ _ S0).
  exists (fun n => f (Datatypes.S n)). split; [destruct (f 1%nat); reflexivity|]. intros n. apply S.
Qed.
Lemma pool_can_finish {A} (l : list (prog A)) w : exists w' os, pool_run w l w' (map Done os).
Proof.
  revert l w. apply (pool_rec (fun l w => exists w' os, pool_run w l w' (map Done os))). intros l w IH.
  destruct (pool_can_step l w) as [(os & ->)|(w' & l' & S)].
  - exists w, os. constructor.
  - destruct (IH w' l' S) as (w2 & os & R). exists w2, os. econstructor; eauto.
Qed.

(** * Running a schedule *)
Lemma advance_step {A} w (p : prog A) w' p' : advance w p = Some (w', p') -> pstep w p w' p'.
Proof.
  destruct p as [o|k f|k f|k f|f|k q d f]; simpl; intros E; [discriminate| | | | |].
  - injection E as <- <-. constructor.
  - destruct (create_dir_all_ret k w) as (r & w2 & R). rewrite R in E. injection E as <- <-. constructor. exact R.
  - destruct (file_create_ret k w) as (r & w2 & R). rewrite R in E. injection E as <- <-. constructor. exact R.
  - injection E as <- <-. constructor.
  - destruct d as [|x d]; injection E as <- <-; [constructor|].
    assert (H := step_put w k q (x :: d) f (length (x :: d))). rewrite firstn_all, skipn_all in H. apply H. simpl. lia.
Qed.
Lemma schedule_run {A} s : forall w (l : list (prog A)), pool_run w l (fst (schedule s w l)) (snd (schedule s w l)).
Proof.
  induction s as [|i s IH]; intros w l; cbn [schedule]; [constructor|].
  destruct (nth_error l i) as [p|] eqn:E; [|constructor].
  destruct (advance w p) as [[w' p']|] eqn:Ea; [|apply IH].
  apply advance_step in Ea. destruct (nth_error_split _ _ E) as (l1 & l2 & -> & L).
  eapply run_move; [|apply IH].
  rewrite firstn_app, L, Nat.sub_diag, firstn_O, app_nil_r, <- L, firstn_all.
  replace (skipn (S (length l1)) (l1 ++ p :: l2)) with l2.
  - constructor. exact Ea.
  - rewrite skipn_app, skipn_all2 by lia. replace (S (length l1) - length l1)%nat with 1%nat by lia. reflexivity.
Qed.

(** Programs that are the same up to the functions in them. *)
Inductive peq {A} : prog A -> prog A -> Prop :=
| peq_done o : peq (Done o) (Done o)
| peq_stat k f g : (forall x, peq (f x) (g x)) -> peq (Stat k f) (Stat k g)
| peq_mkdirs k f g : (forall x, peq (f x) (g x)) -> peq (MkDirs k f) (MkDirs k g)
| peq_create k f g : (forall x, peq (f x) (g x)) -> peq (CreateFile k f) (CreateFile k g)
| peq_seek f g : (forall x, peq (f x) (g x)) -> peq (Seek f) (Seek g)
| peq_put k q d f g : (forall x, peq (f x) (g x)) -> peq (PutAt k q d f) (PutAt k q d g).
Lemma peq_refl {A} (p : prog A) : peq p p.
Proof. induction p; constructor; auto. Qed.
Lemma peq_assoc {A B C} (p : prog A) (g : A -> prog B) (h : B -> prog C) :
  peq (pbind p (fun x => pbind (g x) h)) (pbind (pbind p g) h).
Proof. induction p as [[a| | |]| | | | |]; simpl; try constructor; auto. apply peq_refl. Qed.
Lemma peq_sym {A} (p q : prog A) : peq p q -> peq q p.
Proof. intros H. induction H; constructor; auto. Qed.
Lemma peq_trans {A} (p q r : prog A) : peq p q -> peq q r -> peq p r.
Proof. intros H. revert r. induction H; intros r R; inversion R; subst; constructor; auto. Qed.
Lemma bind_ext {A B} (m : M A) (f g : A -> M B) w : (forall x w, f x w = g x w) -> mbind m f w = mbind m g w.
Proof. intros H. unfold mbind. destruct (m w) as [[a| | |] w1]; auto. Qed.
Lemma interp_peq {A} (p q : prog A) : peq p q -> forall w, interp p w = interp q w.
Proof. intros H. induction H; intros w; simpl; auto; apply bind_ext; auto. Qed.
Lemma peq_bind {A B} (p q : prog A) (f g : A -> prog B) : peq p q -> (forall x, peq (f x) (g x)) -> peq (pbind p f) (pbind q g).
Proof. intros H K. induction H as [[a| | |]| | | | |]; simpl; try constructor; auto. Qed.
Lemma peq_ret {A} (p : prog A) : peq (pbind p (fun x => Done (Ret x))) p.
Proof. induction p as [[a| | |]| | | | |]; simpl; constructor; auto. Qed.
