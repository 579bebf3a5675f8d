(** Calls that write return in any world. *)
From Verif Require Import Base BaseFacts Codec CodecSpec CodecFacts Structs StructsSpec StructsFacts Views ViewsSpec ViewsFacts.
From Verif Require Import Storage PathFacts StorageSpec StorageFacts StorageMore StorageUse Writers WritersSpec StartSpec.
From Verif Require Import MultiViews Archives.
Local Open Scope list_scope.
Local Open Scope Z_scope.

(** Faults are used up, directories stay. *)
Definition ahead (w w' : world) : Prop := incl (w_faults w') (w_faults w) /\ forall k, w_dirs w k = true -> w_dirs w' k = true.
Lemma ahead_refl w : ahead w w.
Proof. split; [apply incl_refl|auto]. Qed.
Lemma ahead_trans w1 w2 w3 : ahead w1 w2 -> ahead w2 w3 -> ahead w1 w3.
Proof. intros (A & B) (C & D). split; [eapply incl_tran; eauto|auto]. Qed.
Lemma ahead_next w w' f l : w_faults w = f :: l -> ahead (set_faults l w) w' -> ahead w w'.
Proof. intros E (A & B). split; [rewrite E; intros x Hx; right; exact (A x Hx)|exact B]. Qed.
(** From a world with [P], with a result and a world that satisfy [Q]. *)
Definition goes {A} (m : M A) (P : world -> Prop) (Q : A -> world -> Prop) : Prop := forall w o w', P w -> m w = (o, w') ->
  ahead w w' /\ ((exists a, o = Ret a /\ Q a w') \/ o = Crash /\ may_die w).
Definition any : world -> Prop := fun _ => True.
Lemma goes_answers {A} (m : M A) Q : goes m any Q -> answers m.
Proof.
  intros H w. destruct (m w) as [o w'] eqn:E. destruct (H w o w' I E) as (_ & [(a & -> & _)|(-> & D)]); cbn [fst]; eauto.
Qed.
Lemma goes_ret {A} (a : A) (P : world -> Prop) (Q : A -> world -> Prop) : (forall w, P w -> Q a w) -> goes (mret a) P Q.
Proof. intros H w o w' HP R. injection R as <- <-. split; [split; [apply incl_refl|auto]|]. left. eauto. Qed.
Lemma goes_bind {A B} (m : M A) (f : A -> M B) P Q R : goes m P Q -> (forall a, goes (f a) (Q a) R) -> goes (mbind m f) P R.
Proof.
  intros H1 H2 w o w' HP E. unfold mbind in E. destruct (m w) as [o1 w1] eqn:E1.
  destruct (H1 w o1 w1 HP E1) as (I1 & [(a & -> & Qa)|(-> & D)]).
  - destruct (H2 a w1 o w' Qa E) as (I2 & X). split; [eapply ahead_trans; eauto|]. destruct X as [X|(-> & (n & D))]; [left; exact X|].
    right. split; [reflexivity|]. exists n. apply (proj1 I1), D.
  - injection E as <- <-. split; [exact I1|]. right. auto.
Qed.
Lemma goes_weaken {A} (m : M A) (P P' : world -> Prop) (Q Q' : A -> world -> Prop) : goes m P Q -> (forall w, P' w -> P w) -> (forall a w, Q a w -> Q' a w) -> goes m P' Q'.
Proof. intros H HP HQ w o w' X R. destruct (H w o w' (HP w X) R) as (I1 & [(a & E & Y)|Y]); split; eauto. Qed.
Lemma goes_try {A B E F} (conv : E -> F) (m : M (result A E)) (f : A -> M (result B F)) P Q (R : result B F -> world -> Prop) :
  goes m P (fun r w => match r with Ok a => Q a w | Er _ => True end) -> (forall a, goes (f a) (Q a) R) ->
  (forall x w, R (Er x) w) -> goes (mtry conv m f) P R.
Proof.
  intros H1 H2 H3. eapply goes_bind; [exact H1|]. intros [a|x]; [apply H2|]. apply goes_ret. auto.
Qed.

Lemma goes_syscall {A} (act : M (result A io_kind)) (P : world -> Prop) (Q : result A io_kind -> world -> Prop) : goes act P Q -> (forall w l, P w -> P (set_faults l w)) ->
  (forall k w, Q (Er k) w) -> goes (syscall act) P Q.
Proof.
  intros H HP HQ w o w' X R. unfold syscall, next_fault in R. destruct (w_faults w) as [|f l] eqn:Ef.
  - destruct (H w o w' X R) as (I1 & Y). split; [exact I1|exact Y].
  - destruct f as [|k|n k|n].
    + destruct (H _ o w' (HP w l X) R) as (I1 & Y). split; [eapply ahead_next; eauto|].
      destruct Y as [Y|(-> & (n & D))]; [left; exact Y|]. right. split; [reflexivity|]. exists n. rewrite Ef. right. exact D.
    + injection R as <- <-. split; [eapply ahead_next; [exact Ef|apply ahead_refl]|]. left. eauto.
    + injection R as <- <-. split; [eapply ahead_next; [exact Ef|apply ahead_refl]|]. left. eauto.
    + injection R as <- <-. split; [eapply ahead_next; [exact Ef|apply ahead_refl]|]. right. split; [reflexivity|]. exists n. rewrite Ef. left. reflexivity.
Qed.
(** Calls that only look at the world, or change it without using up faults. *)
Lemma goes_pure {A} (f : world -> A) (g : world -> world) (Q : A -> world -> Prop) : (forall w, ahead w (g w)) ->
  (forall w, Q (f w) (g w)) -> goes (fun w => (Ret (f w), g w)) any Q.
Proof. intros H HQ w o w' _ R. injection R as <- <-. split; [apply H|]. left. eauto. Qed.

Lemma exists_goes k (Q : bool -> world -> Prop) : (forall x w, Q x w) -> goes (path_exists k) any Q.
Proof.
  intros HQ. eapply (goes_bind _ _ _ (fun _ _ => True)).
  - apply goes_syscall; [apply (goes_pure _ (fun w => w)); auto using ahead_refl|intros; exact I|auto].
  - intros [x|x]; apply goes_ret; auto.
Qed.
(** The stream has an entry in the storage. *)
Definition live (s : stream) (w : world) : Prop := match s with SMem id k => w_streams w id k <> None | SFile _ _ => True end.
Definition lives (r : result stream io_kind) (w : world) : Prop := match r with Ok s => live s w | Er _ => True end.
Lemma dirs_goes k : goes (create_dir_all k) any (fun _ _ => True).
Proof.
  intros w o w' _ R. assert (G : forall v f, ahead v (set_dirs (fun x => w_dirs v x || f x) v)).
  { intros v f. split; [apply incl_refl|]. cbn. intros x ->. reflexivity. }
  assert (Gm : forall n v, ahead v (if file_on_path k v then v else make_dirs k n v)).
  { intros n v. destruct (file_on_path k v); [apply ahead_refl|apply G]. }
  unfold create_dir_all, next_fault in R. destruct (w_faults w) as [|f l] eqn:Ef.
  - destruct (file_on_path k w); injection R as <- <-; (split; [|left; eauto]); [apply ahead_refl|apply G].
  - destruct f as [|e|n e|n]; [destruct (file_on_path _ _)| | |]; injection R as <- <-;
      (split; [eapply ahead_next; [exact Ef|]; try apply Gm; try apply ahead_refl; apply (G (set_faults l w) (fun x => is_prefix_of x k))|]); try (left; eauto; fail).
    right. split; [reflexivity|]. exists n. rewrite Ef. left. reflexivity.
Qed.
Lemma file_goes k : goes (file_create k) any lives.
Proof.
  apply goes_syscall; [|intros; exact I|intros; exact I]. intros w o w' _ R.
  destruct (is_dir k w); [|destruct (is_dir (parent k) w)]; injection R as <- <-; (split; [split; [apply incl_refl|auto]|left; eexists; split; [reflexivity|exact I]]).
Qed.
Lemma stream_goes st name : goes (create_output_stream st name) any lives.
Proof.
  destruct st as [id base|id base]; cbn [create_output_stream].
  - intros w o w' _ R. injection R as <- <-. destruct (w_streams w id (res_key (MemStorage id base) name)) eqn:E.
    + split; [split; [apply incl_refl|auto]|]. left. eexists. split; [reflexivity|]. cbn. rewrite E. discriminate.
    + split; [split; [apply incl_refl|auto]|]. left. eexists. split; [reflexivity|]. cbn. rewrite nupd_same, kupd_same. discriminate.
  - eapply goes_bind; [apply (exists_goes _ (fun _ _ => True)); auto|]. intros x.
    eapply (goes_try _ _ _ _ (fun _ _ => True)).
    + destruct x; [apply goes_ret; auto|]. eapply goes_weaken; [apply dirs_goes|auto|]. intros [|]; auto.
    + intros _. apply file_goes.
    + intros; exact I.
Qed.
Definition lives2 (r : result unit io_kind * stream) (w : world) : Prop := live (snd r) w.
Lemma write_all_goes s d : goes (write_all s d) (live s) lives2.
Proof.
  intros w o w' L R. destruct s as [id k|k p]; cbn [write_all live] in *.
  - destruct (w_streams w id k) as [[c p]|]; [|congruence]. injection R as <- <-. split; [split; [apply incl_refl|auto]|]. left. eexists. split; [reflexivity|].
    cbn. rewrite nupd_same, kupd_same. discriminate.
  - destruct d as [|x d]; [injection R as <- <-; split; [split; [apply incl_refl|auto]|left; eexists; split; [reflexivity|exact I]]|].
    unfold next_fault in R. destruct (w_faults w) as [|f l] eqn:Ef.
    + injection R as <- <-. cbn. split; [split; [apply incl_refl|auto]|]. left. eexists. split; [reflexivity|exact I].
    + destruct f; injection R as <- <-; (split; [eapply ahead_next; [exact Ef|]; split; [apply incl_refl|auto]|]);
        try (left; eexists; split; [reflexivity|exact I]).
      right. split; [reflexivity|]. exists n. rewrite Ef. left. reflexivity.
Qed.
Lemma goes_stry {B} m (f : stream -> M (result B io_kind)) P (R : result B io_kind -> world -> Prop) : goes m P lives2 ->
  (forall s, goes (f s) (live s) R) -> (forall x w, R (Er x) w) -> goes (stry m f) P R.
Proof.
  intros H1 H2 H3. eapply goes_bind; [exact H1|]. intros [[u|k] s]; [apply H2|]. apply goes_ret. auto.
Qed.

Section Env.
Variables (b : build) (e : endian).
Lemma write_size_goes v s : goes (write_size b e v s) (live s) lives2.
Proof.
  unfold write_size. intros w o w' L R. unfold mbind, lift in R. rewrite write_size_bytes in R. eapply write_all_goes; eauto.
Qed.
Lemma schema_goes schema s : goes (write_schema schema s) (live s) (fun _ _ => True).
Proof. apply goes_stry; [apply write_all_goes| |auto]. intros s'. apply goes_ret. auto. Qed.
Lemma write_goes st name schema data : goes (write b e st name schema data) any (fun _ _ => True).
Proof.
  unfold write. eapply (goes_try _ _ _ _ live); [apply stream_goes| |auto]. intros s.
  eapply (goes_try _ _ _ _ (fun _ _ => True)); [|intros u|auto].
  - apply (goes_weaken _ (live s) (live s) (fun _ _ => True)); [|auto|].
    + apply goes_stry; [apply write_size_goes| |auto]. intros s1. apply goes_stry; [apply write_all_goes| |auto].
      intros s2. apply goes_stry; [apply write_all_goes| |auto]. intros s3. apply goes_ret. intros. exact I.
    + intros [|]; auto.
  - eapply (goes_try _ _ _ _ live); [apply stream_goes| |auto]. intros s1. apply schema_goes.
Qed.
Lemma exists_all_goes st name : goes (exists_ st name) any (fun _ _ => True).
Proof. destruct st; [apply (goes_pure _ (fun w => w)); auto using ahead_refl|apply exists_goes; auto]. Qed.
Lemma create_archive_goes st aname aschema : goes (create_archive b e st aname aschema) any (fun _ _ => True).
Proof.
  unfold create_archive. eapply goes_bind; [apply exists_all_goes|]. intros [|]; [apply goes_ret; auto|].
  eapply (goes_try _ _ _ _ (fun _ _ => True)); [eapply goes_weaken; [apply write_goes|auto|intros [|]; auto]| |auto].
  intros u. apply goes_ret. auto.
Qed.
Lemma builder_new_goes a st : goes (builder_new b e a st) any (fun _ _ => True).
Proof.
  unfold builder_new. eapply (goes_try _ _ _ _ (fun _ _ => True)); [eapply goes_weaken; [apply create_archive_goes|auto|intros [|]; auto]| |auto].
  intros u. apply goes_ret. auto.
Qed.
Lemma sub_builder_goes st s : goes (sub_builder b e st s) any (fun _ _ => True).
Proof.
  unfold sub_builder. eapply (goes_bind _ _ _ (fun _ _ => True)).
  - destruct st; cbn [subdir]; unfold mem_new, file_new; intros w o w' _ R; injection R as <- <-; (split; [split; [apply incl_refl|auto]|left; eauto]).
  - intros st'. apply builder_new_goes.
Qed.
Definition opened_handle (r : result handle io_kind) (w : world) : Prop :=
  match r with Ok h => is_open h = true /\ h_size h = 0 | Er _ => True end.
Lemma create_handle_goes st name schema : goes (create_handle b e st name schema) any opened_handle.
Proof.
  unfold create_handle. eapply (goes_try _ _ _ _ live); [apply stream_goes| |intros; exact I]. intros s.
  eapply (goes_try _ _ _ _ (fun _ _ => True)); [eapply goes_weaken; [apply schema_goes|intros w H; exact H|intros [|]; auto]| |intros; exact I].
  intros u. eapply (goes_try _ _ _ _ live); [apply stream_goes| |intros; exact I]. intros s1.
  apply goes_stry; [apply write_size_goes| |intros; exact I]. intros s2. apply goes_ret. intros. split; reflexivity.
Qed.
Definition opened_vector (r : result ext_vec io_kind) (w : world) : Prop :=
  match r with Ok v => ev_is_open v = true /\ ev_len v = 0 | Er _ => True end.
Lemma create_ev_goes st name schema : goes (create_external_vector b e st name schema) any opened_vector.
Proof.
  unfold create_external_vector.
  eapply (goes_try _ _ _ _ (fun h w => opened_handle (Ok h) w)); [eapply goes_weaken; [apply create_handle_goes|auto|intros [|]; auto]| |intros; exact I].
  intros h. apply goes_ret. intros w (H & _). split; [exact H|reflexivity].
Qed.
Lemma create_ev_open st name schema w v w' : create_external_vector b e st name schema w = (Ret (Ok v), w') -> is_open (ev_handle v) = true.
Proof.
  intros R. destruct (create_ev_goes st name schema w _ _ I R) as (_ & [(a & E & Q)|(E & _)]); [|discriminate].
  injection E as <-. apply Q.
Qed.

(** A directory is in the way. *)
Lemma stream_blocked st name w s w' : is_file st = true -> create_output_stream st name w = (Ret (Ok s), w') -> is_dir (res_key st name) w = false.
Proof.
  destruct st as [id base|id base]; [discriminate|]. intros _ R. cbn [create_output_stream] in R. unfold mtry in R.
  apply bind_ret in R as (x & w1 & R1 & R). destruct (exists_goes _ (fun _ _ => True) (fun _ _ => I) _ _ _ I R1) as ((_ & A1) & _).
  apply bind_ret in R as (y & w2 & R2 & R). assert (A2 : ahead w1 w2).
  { destruct x; [injection R2 as <- <-; apply ahead_refl|]. apply (dirs_goes _ _ _ _ I R2). }
  destruct y as [u|k]; [|discriminate R]. destruct A2 as (_ & A2). unfold file_create, syscall in R.
  unfold next_fault in R. destruct (is_dir (res_key (FileStorage id base) name) w) eqn:D; [|reflexivity].
  assert (D2 : forall l, is_dir (res_key (FileStorage id base) name) (set_faults l w2) = true /\ is_dir (res_key (FileStorage id base) name) w2 = true).
  { intros l. unfold is_dir in *. cbn [w_dirs set_faults]. apply orb_true_iff in D as [D|D]; [rewrite (A2 _ (A1 _ D)); auto|rewrite D, !orb_true_r; auto]. }
  destruct (w_faults w2) as [|[|k|n k|n] l]; try discriminate R; rewrite (proj1 (D2 l)) in R || rewrite (proj2 (D2 [])) in R; discriminate R.
Qed.
Lemma handle_blocked st name schema w h w' : is_file st = true -> create_handle b e st name schema w = (Ret (Ok h), w') -> is_dir (res_key st name) w = false.
Proof.
  intros Hf R. unfold create_handle, mtry in R. apply bind_ret in R as ([s|k] & w1 & R1 & R); [|discriminate R].
  destruct (stream_goes _ _ _ _ _ I R1) as ((_ & A1) & [(a & E & L)|(E & _)]); [|discriminate]. injection E as <-.
  apply bind_ret in R as ([u|k] & w2 & R2 & R); [|discriminate R]. destruct (schema_goes _ _ _ _ _ L R2) as ((_ & A2) & _).
  apply bind_ret in R as ([s2|k] & w3 & R3 & R); [|discriminate R]. assert (D := stream_blocked _ _ _ _ _ Hf R3).
  unfold is_dir in *. apply orb_false_iff in D as (D1 & D2). apply orb_false_iff. split; [|exact D2].
  destruct (w_dirs w (res_key st name)) eqn:E; [|reflexivity]. rewrite (A2 _ (A1 _ E)) in D1. discriminate.
Qed.
Lemma handle_fails st name schema w k : is_file st = true -> cannot_create k w -> exists w', create_handle b e st name schema w = (Ret (Er k), w').
Proof.
  destruct st as [id base|id base]; [discriminate|]. intros _ (l & Hl).
  unfold create_handle, mtry. cbn [create_output_stream]. unfold path_exists, syscall, next_fault, mtry, mbind. rewrite Hl. cbn.
  destruct (on_disk _ _); cbn; [unfold mret; cbn|]; eexists; reflexivity.
Qed.

(** The exact result for multivectors. *)
Lemma create_mv_result st name schema w :
  match create_external_vector b e st (index_name name) (index_schema schema) w with
  | (Ret (Er k), w1) => create_multi_vector b e st name schema w = (Ret (Er k), w1)
  | (Ret (Ok v), w1) =>
      match create_handle b e st name schema w1 with
      | (Ret (Ok h), w2) => create_multi_vector b e st name schema w = (Ret (Ok (mv_new v h)), w2)
      | (Ret (Er _), w2) => create_multi_vector b e st name schema w = (Panic, w2)
      | (o, w2) => o = Crash /\ create_multi_vector b e st name schema w = (Crash, w2)
      end
  | (o, w1) => o = Crash /\ create_multi_vector b e st name schema w = (Crash, w1)
  end.
Proof.
  unfold create_multi_vector, mtry, mbind. destruct (create_external_vector b e st (index_name name) (index_schema schema) w) as [o1 w1] eqn:E1.
  destruct (create_ev_goes _ _ _ _ _ _ I E1) as (_ & [(a & -> & _)|(-> & _)]); [|auto].
  destruct a as [v|k]; [|reflexivity]. assert (Op := create_ev_open _ _ _ _ _ _ E1).
  destruct (create_handle b e st name schema w1) as [o2 w2] eqn:E2.
  destruct (create_handle_goes _ _ _ _ _ _ I E2) as (_ & [(a & -> & _)|(-> & _)]); [|auto].
  destruct a as [h|k]; [reflexivity|]. unfold handle_drop. rewrite Op. reflexivity.
Qed.

(** Memory storage. *)
Lemma mem_stream id base name w : exists w', create_output_stream (MemStorage id base) name w = (Ret (Ok (SMem id (res_key (MemStorage id base) name))), w')
  /\ live (SMem id (res_key (MemStorage id base) name)) w'.
Proof.
  cbn [create_output_stream]. eexists. split; [reflexivity|]. cbn [live].
  destruct (w_streams w id (res_key (MemStorage id base) name)) eqn:E; [congruence|]. cbn. rewrite nupd_same, kupd_same. discriminate.
Qed.
Lemma mem_write_all id k d w : live (SMem id k) w -> exists w', write_all (SMem id k) d w = (Ret (Ok tt, SMem id k), w') /\ live (SMem id k) w'.
Proof.
  intros L. cbn [write_all live] in *. destruct (w_streams w id k) as [[c p]|]; [|congruence]. eexists. split; [reflexivity|].
  cbn. rewrite nupd_same, kupd_same. discriminate.
Qed.
Lemma mem_size id k v w : live (SMem id k) w -> exists w', write_size b e v (SMem id k) w = (Ret (Ok tt, SMem id k), w') /\ live (SMem id k) w'.
Proof. intros L. unfold write_size, mbind, lift. rewrite write_size_bytes. apply mem_write_all. exact L. Qed.
Lemma mem_handle id base name schema w : exists h w', create_handle b e (MemStorage id base) name schema w = (Ret (Ok h), w').
Proof.
  unfold create_handle, mtry, mbind. destruct (mem_stream id base (schema_name name) w) as (w1 & -> & L1).
  unfold write_schema, stry, mbind. destruct (mem_write_all _ _ schema _ L1) as (w2 & -> & _). unfold mret at 1.
  destruct (mem_stream id base name w2) as (w3 & -> & L3). unfold handle_try_new, stry, mbind.
  destruct (mem_size _ _ 0 _ L3) as (w4 & -> & _). unfold mret. eauto.
Qed.
Lemma mem_vector id base name schema w : exists v w', create_external_vector b e (MemStorage id base) name schema w = (Ret (Ok v), w').
Proof. unfold create_external_vector, mtry, mbind. destruct (mem_handle id base name schema w) as (h & w1 & ->). unfold mret. eauto. Qed.
Lemma mem_multi id base name schema w : exists v w', create_multi_vector b e (MemStorage id base) name schema w = (Ret (Ok v), w').
Proof.
  unfold create_multi_vector, mtry, mbind. destruct (mem_vector id base (index_name name) (index_schema schema) w) as (v & w1 & ->).
  destruct (mem_handle id base name schema w1) as (h & w2 & ->). unfold mret. eauto.
Qed.
Lemma mem_write id base name schema data w : exists w', write b e (MemStorage id base) name schema data w = (Ret (Ok tt), w').
Proof.
  unfold write, mtry, mbind. destruct (mem_stream id base name w) as (w1 & -> & L1). unfold write_to_stream, write_padding, stry, mbind.
  destruct (mem_size _ _ (len data) _ L1) as (w2 & -> & L2). destruct (mem_write_all _ _ data _ L2) as (w3 & -> & L3).
  destruct (mem_write_all _ _ (zeros PADDING_SIZE) _ L3) as (w4 & -> & L4). unfold mret at 1.
  destruct (mem_stream id base (schema_name name) w4) as (w5 & -> & L5). unfold write_schema, stry, mbind.
  destruct (mem_write_all _ _ schema _ L5) as (w6 & -> & L6). unfold mret. eauto.
Qed.

Lemma create_mv_exact st name schema w w' :
  let index := create_external_vector b e st (index_name name) (index_schema schema) w in
  let data := create_handle b e st name schema in
  let multi := create_multi_vector b e st name schema w in
  (forall v, multi = (Ret (Ok v), w') <-> exists i w1 h, index = (Ret (Ok i), w1) /\ data w1 = (Ret (Ok h), w') /\ v = mv_new i h) /\
  (forall k, multi = (Ret (Er k), w') <-> index = (Ret (Er k), w')) /\
  (multi = (Panic, w') <-> exists i w1 k, index = (Ret (Ok i), w1) /\ data w1 = (Ret (Er k), w')) /\
  fst multi <> UB /\ (fst multi = Crash -> may_die w).
Proof.
  intros index data multi. assert (R := create_mv_result st name schema w). unfold multi, data, index in *.
  destruct (create_external_vector b e st (index_name name) (index_schema schema) w) as [o1 w1] eqn:E1.
  destruct (create_ev_goes _ _ _ _ _ _ I E1) as ((F1 & _) & [(a & -> & _)|(-> & D)]).
  - destruct a as [v|k].
    + destruct (create_handle b e st name schema w1) as [o2 w2] eqn:E2.
      destruct (create_handle_goes _ _ _ _ _ _ I E2) as (_ & [(a & -> & _)|(-> & (n & D))]).
      * destruct a as [h|k]; rewrite R; cbn [fst].
        -- split; [intros u; split; [intros [= <- <-]; eauto 7|intros (i & w3 & h' & [= <- <-] & X & ->); rewrite E2 in X; injection X as <- <-; reflexivity]|].
           split; [intros k; split; intros [=]|]. split; [split; [intros [=]|intros (i & w3 & k & [= <- <-] & X); rewrite E2 in X; discriminate X]|].
           split; discriminate.
        -- split; [intros u; split; [intros [=]|intros (i & w3 & h' & [= <- <-] & X & ->); rewrite E2 in X; discriminate X]|].
           split; [intros k'; split; intros [=]|].
           split; [split; [intros [= <-]; eauto 6|intros (i & w3 & k' & [= <- <-] & X); rewrite E2 in X; injection X as <- <-; reflexivity]|].
           split; discriminate.
      * destruct R as (_ & R). rewrite R. cbn [fst].
        split; [intros u; split; [intros [=]|intros (i & w3 & h' & [= <- <-] & X & ->); rewrite E2 in X; discriminate X]|].
        split; [intros k'; split; intros [=]|].
        split; [split; [intros [=]|intros (i & w3 & k' & [= <- <-] & X); rewrite E2 in X; discriminate X]|].
        split; [discriminate|]. intros _. exists n. apply F1, D.
    + rewrite R. cbn [fst]. split; [intros u; split; [intros [=]|intros (i & w3 & h' & [=] & _)]|].
      split; [intros k'; split; intros [= <- <-]; reflexivity|]. split; [split; [intros [=]|intros (i & w3 & k' & [=] & _)]|]. split; discriminate.
  - destruct R as (_ & R). rewrite R. cbn [fst]. split; [intros u; split; [intros [=]|intros (i & w3 & h' & [=] & _)]|].
    split; [intros k'; split; intros [=]|]. split; [split; [intros [=]|intros (i & w3 & k' & [=] & _)]|]. split; [discriminate|auto].
Qed.
Lemma multi_directory st name schema w i w1 : is_file st = true -> is_dir (res_key st name) w = true -> ~ may_die w ->
  create_external_vector b e st (index_name name) (index_schema schema) w = (Ret (Ok i), w1) ->
  fst (create_multi_vector b e st name schema w) = Panic.
Proof.
  intros Hf D N E1. assert (R := create_mv_result st name schema w). rewrite E1 in R.
  destruct (create_ev_goes _ _ _ _ _ _ I E1) as ((F1 & A1) & _).
  destruct (create_handle b e st name schema w1) as [o2 w2] eqn:E2.
  destruct (create_handle_goes _ _ _ _ _ _ I E2) as (_ & [(a & -> & _)|(-> & (n & X))]).
  - destruct a as [h|k]; [|rewrite R; reflexivity]. assert (Y := handle_blocked _ _ _ _ _ _ Hf E2).
    unfold is_dir in *. apply orb_false_iff in Y as (Y1 & Y2). rewrite Y2, orb_false_r in D. rewrite (A1 _ D) in Y1. discriminate.
  - destruct N. exists n. apply F1, X.
Qed.
End Env.
