(** Executions as logs of effects on files. *)
From Verif Require Import Base BaseFacts Codec CodecSpec Structs StructsSpec Views ViewsSpec.
From Verif Require Import Storage PathFacts StorageSpec StorageFacts Writers MomentSpec.
Local Open Scope list_scope.
Local Open Scope Z_scope.

(** The effect of a system call on the files. *)
Inductive effect := Quiet | Create (k : key) | Put (k : key) (p : Z) (d : list Z).
Definition files : Type := key -> option (list Z).
Definition act (E : effect) (f : files) : files :=
  match E with
  | Quiet => f
  | Create k => kupd k (Some []) f
  | Put k p d => kupd k (Some (splice p d (match f k with Some c => c | None => [] end))) f
  end.
Definition cut (j : nat) (E : effect) : effect :=
  match E with Put k p d => Put k p (firstn j d) | _ => Quiet end.
Fixpoint acts (L : list effect) (f : files) : files :=
  match L with [] => f | E :: L => acts L (act E f) end.
Fixpoint upto (L : list effect) (n j : nat) (f : files) : files :=
  match L, n with
  | [], _ => f
  | E :: _, O => act (cut j E) f
  | E :: L, S n => upto L n j (act E f)
  end.

Definition logs {A} (m : M A) (w : world) (L : list effect) (o : outcome A) (w0 : world) : Prop :=
  w_files w0 = acts L (w_files w) /\
  (forall l, m (set_faults (repeat FOk (length L) ++ l) w) = (o, set_faults l w0)) /\
  m (set_faults [] w) = (o, set_faults [] w0) /\
  forall n j, (n < length L)%nat -> exists w1, m (stop_at (At n j) w) = (Crash, w1) /\
    w_files w1 = upto L n j (w_files w).

Definition traced {A} (m : M A) (w : world) (Q : list effect -> outcome A -> world -> Prop) : Prop :=
  exists L o w0, logs m w L o w0 /\ Q L o w0.

Lemma acts_app L1 L2 f : acts (L1 ++ L2) f = acts L2 (acts L1 f).
Proof. revert f. induction L1 as [|E L1 IH]; intros f; simpl; auto. Qed.

Lemma upto_app_l L1 L2 n j f : (n < length L1)%nat -> upto (L1 ++ L2) n j f = upto L1 n j f.
Proof.
  revert n f. induction L1 as [|E L1 IH]; intros n f H; simpl in *; [lia|].
  destruct n; auto. apply IH. lia.
Qed.
Lemma upto_app_r L1 L2 n j f : (length L1 <= n)%nat -> upto (L1 ++ L2) n j f = upto L2 (n - length L1) j (acts L1 f).
Proof.
  revert n f. induction L1 as [|E L1 IH]; intros n f H; simpl in *.
  - rewrite Nat.sub_0_r. auto.
  - destruct n; [lia|]. simpl. apply IH. lia.
Qed.
Lemma upto_end L n j f : (length L <= n)%nat -> upto L n j f = acts L f.
Proof.
  revert n f. induction L as [|E L IH]; intros n f H; simpl in *; [destruct n; auto|].
  destruct n; [lia|]. apply IH. lia.
Qed.

Lemma repeat_app_more n1 n2 : repeat FOk (n1 + n2) = repeat FOk n1 ++ repeat FOk n2.
Proof. induction n1; simpl; congruence. Qed.

Lemma world_at_logs {A} (m : M A) w L o w0 x : logs m w L o w0 ->
  w_files (world_at m w x) = upto L (calls_done x) (bytes_done x) (w_files w).
Proof.
  intros (F & R & _ & C). unfold world_at. destruct x as [n j]. simpl.
  destruct (Nat.lt_ge_cases n (length L)) as [H|H].
  - destruct (C n j H) as (w1 & E & X). rewrite E. auto.
  - unfold stop_at. simpl. replace n with (length L + (n - length L))%nat by lia.
    rewrite repeat_app_more, <- app_assoc, R. simpl. rewrite F, upto_end; auto. lia.
Qed.

Lemma logs_clean {A} (m : M A) w L o w0 : logs m w L o w0 -> m (set_faults [] w) = (o, set_faults [] w0).
Proof. intros (_ & _ & H & _). auto. Qed.

(** * Rules *)
Lemma traced_conseq {A} (m : M A) w (Q Q' : list effect -> outcome A -> world -> Prop) :
  traced m w Q -> (forall L o w0, Q L o w0 -> Q' L o w0) -> traced m w Q'.
Proof. intros (L & o & w0 & H & q) I. exists L, o, w0. auto. Qed.

Lemma traced_silent {A} (m : M A) w o w0 (Q : list effect -> outcome A -> world -> Prop) :
  w_files w0 = w_files w -> (forall l, m (set_faults l w) = (o, set_faults l w0)) -> Q [] o w0 -> traced m w Q.
Proof.
  intros F H q. exists [], o, w0. split; auto. split; [auto|]. split; [auto|]. split; [auto|].
  simpl. intros; lia.
Qed.

Lemma traced_ret {A} (a : A) w (Q : list effect -> outcome A -> world -> Prop) : Q [] (Ret a) w -> traced (mret a) w Q.
Proof. apply traced_silent; auto. Qed.
Lemma traced_lift {A} (x : outcome A) w (Q : list effect -> outcome A -> world -> Prop) : Q [] x w -> traced (lift x) w Q.
Proof. apply traced_silent; auto. Qed.

Lemma traced_bind {A B} (m : M A) (f : A -> M B) w (Q : list effect -> outcome B -> world -> Prop) :
  traced m w (fun L o w1 => match o with
    | Ret a => traced (f a) w1 (fun L2 o2 w2 => Q (L ++ L2) o2 w2)
    | Panic => Q L Panic w1 | UB => Q L UB w1 | Crash => Q L Crash w1 end) ->
  traced (mbind m f) w Q.
Proof.
  intros (L & o & w1 & (F & R & R0 & C) & q).
  assert (Stop : forall x : outcome B, (o = UB /\ x = UB) \/ (o = Panic /\ x = Panic) \/ (o = Crash /\ x = Crash) -> Q L x w1 -> traced (mbind m f) w Q).
  { intros x X q'. exists L, x, w1. split; auto. split; auto.
    split; [intros l; unfold mbind; rewrite R|split; [unfold mbind; rewrite R0|]].
    - destruct X as [(-> & ->)|[(-> & ->)|(-> & ->)]]; auto.
    - destruct X as [(-> & ->)|[(-> & ->)|(-> & ->)]]; auto.
    - intros n j H. destruct (C n j H) as (w2 & E & X'). exists w2. unfold mbind. rewrite E. auto. }
  destruct o as [a| | |]; [clear Stop|apply (Stop Panic); auto|apply (Stop UB); auto|apply (Stop Crash); auto].
  destruct q as (L2 & o2 & w2 & (F2 & R2 & R02 & C2) & q). exists (L ++ L2), o2, w2. split; [|exact q].
  split; [rewrite acts_app, <- F; auto|]. split; [|split].
  - intros l. rewrite app_length, repeat_app_more, <- app_assoc. unfold mbind. rewrite R. apply R2.
  - unfold mbind. rewrite R0. auto.
  - intros n j H. rewrite app_length in H. unfold mbind. destruct (Nat.lt_ge_cases n (length L)) as [Hn|Hn].
    + destruct (C n j Hn) as (w3 & E & X). rewrite E. exists w3. rewrite upto_app_l; auto.
    + unfold stop_at. simpl calls_done. simpl bytes_done.
      assert (En : repeat FOk n = repeat FOk (length L) ++ repeat FOk (n - length L)).
      { rewrite <- repeat_app_more. f_equal. lia. }
      rewrite En, <- app_assoc, R. destruct (C2 (n - length L)%nat j ltac:(lia)) as (w3 & E & X).
      unfold stop_at in E. simpl in E. rewrite E. exists w3. rewrite upto_app_r, <- F; auto.
Qed.

(** A system call that does not look at the pending faults. *)
Lemma traced_syscall {A} (a : M (result A io_kind)) w E o w0 (Q : list effect -> outcome (result A io_kind) -> world -> Prop) :
  (forall l, a (set_faults l w) = (o, set_faults l w0)) -> w_files w0 = act E (w_files w) ->
  (forall k p d, E <> Put k p d) -> Q [E] o w0 -> traced (syscall a) w Q.
Proof.
  intros H F N q. exists [E], o, w0. split; auto. split; auto. split; [|split].
  - intros l. unfold syscall, next_fault. simpl. apply H.
  - unfold syscall, next_fault. simpl. apply H.
  - intros n j Hn. simpl in Hn. assert (n = 0%nat) by lia. subst. unfold syscall, stop_at, next_fault. simpl.
    eexists. split; [reflexivity|]. destruct E; simpl; auto. edestruct N; reflexivity.
Qed.

(** Making directories: a killed process leaves some of them, and the same files. *)
Lemma traced_dirs k w (Q : list effect -> outcome (result unit io_kind) -> world -> Prop) :
  (file_on_path k w = true -> Q [Quiet] (Ret (Er KOther)) w) ->
  (file_on_path k w = false -> Q [Quiet] (Ret (Ok tt)) (set_dirs (fun x => w_dirs w x || is_prefix_of x k) w)) ->
  traced (create_dir_all k) w Q.
Proof.
  intros q1 q2. assert (C : forall n j, (n < 1)%nat -> exists w1, create_dir_all k (stop_at (At n j) w) = (Crash, w1) /\ w_files w1 = upto [Quiet] n j (w_files w)).
  { intros n j Hn. assert (n = 0%nat) by lia. subst. eexists. split; [reflexivity|]. destruct (file_on_path _ _); reflexivity. }
  destruct (file_on_path k w) eqn:D; eexists [Quiet], _, _; (split; [|eauto]); (split; [reflexivity|]); (split; [|split; [|exact C]]); intros;
    unfold create_dir_all, next_fault; cbn [length repeat app w_faults set_faults];
    match goal with |- context[file_on_path k ?v] => change (file_on_path k v) with (file_on_path k w) end; rewrite D; reflexivity.
Qed.

Lemma traced_write_all k p d w (Q : list effect -> outcome (result unit io_kind * stream) -> world -> Prop) :
  (d = [] -> Q [] (Ret (Ok tt, SFile k p)) w) ->
  (d <> [] -> Q [Put k p d] (Ret (Ok tt, SFile k (p + len d))) (file_write k p d w)) ->
  traced (write_all (SFile k p) d) w Q.
Proof.
  intros Q0 Q1. destruct d as [|x d].
  - apply (traced_silent _ w (Ret (Ok tt, SFile k p)) w); auto.
  - exists [Put k p (x :: d)], (Ret (Ok tt, SFile k (p + len (x :: d)))), (file_write k p (x :: d) w).
    split; [|apply Q1; congruence]. split; [reflexivity|]. split; [|split].
    + intros l. reflexivity.
    + reflexivity.
    + intros n j Hn. simpl in Hn. assert (n = 0%nat) by lia. subst. eexists. split; [reflexivity|]. reflexivity.
Qed.

Lemma traced_if {A} (c : bool) (m1 m2 : M A) w (Q : list effect -> outcome A -> world -> Prop) :
  (c = true -> traced m1 w Q) -> (c = false -> traced m2 w Q) -> traced (if c then m1 else m2) w Q.
Proof. destruct c; auto. Qed.

(** * The operations of file storage *)
Definition quiet_log (L : list effect) : Prop := Forall (eq Quiet) L.
Lemma quiet_nil : quiet_log [].
Proof. constructor. Qed.
Lemma quiet_app L1 L2 : quiet_log L1 -> quiet_log L2 -> quiet_log (L1 ++ L2).
Proof. intros. apply Forall_app. auto. Qed.

Lemma traced_path_exists k w (Q : list effect -> outcome bool -> world -> Prop) :
  Q [Quiet] (Ret (on_disk k w)) w -> traced (path_exists k) w Q.
Proof.
  intros q. unfold path_exists. apply traced_bind.
  apply (traced_syscall _ w Quiet (Ret (Ok (on_disk k w))) w); auto; [discriminate|].
  apply traced_ret. exact q.
Qed.

Lemma traced_mmap id path w (Q : list effect -> outcome (result slice io_kind) -> world -> Prop) :
  (forall L o w', quiet_log L -> w_files w' = w_files w -> Q L o w') -> traced (mmap_read id path) w Q.
Proof.
  intros q. unfold mmap_read. destruct (w_maps w id path) as [l|] eqn:E.
  - eapply (traced_silent _ w (omap Ok (mapped (key_of path) l w)) w); auto; [|apply q; auto; apply quiet_nil].
    intros l'. simpl. rewrite E. reflexivity.
  - assert (X : traced (syscall (fun w =>
        match w_files w (key_of path) with
        | None => (Ret (Er (if is_dir (key_of path) w then KOther else KNotFound)), w)
        | Some c =>
            if len c =? 0 then (Ret (Er KInvalidInput), w)
            else
              let w' := set_maps (nupd id (supd path (Some (len c)) (w_maps w id)) (w_maps w)) w in
              (omap Ok (mapped (key_of path) (len c) w'), w')
        end)) w Q).
    { destruct (w_files w (key_of path)) as [c|] eqn:Ef.
      - destruct (len c =? 0) eqn:El.
        + apply (traced_syscall _ w Quiet (Ret (Er KInvalidInput)) w); auto; [|discriminate|apply q; repeat constructor].
          intros l. simpl. rewrite Ef, El. auto.
        + eapply (traced_syscall _ w Quiet (omap Ok (mapped (key_of path) (len c) w)) (set_maps (nupd id (supd path (Some (len c)) (w_maps w id)) (w_maps w)) w)); auto; [|discriminate|apply q; repeat constructor].
          intros l. simpl. rewrite Ef, El. reflexivity.
      - apply (traced_syscall _ w Quiet (Ret (Er (if is_dir (key_of path) w then KOther else KNotFound))) w); auto; [|discriminate|apply q; repeat constructor].
        intros l. simpl. rewrite Ef. auto. }
    destruct X as (L & o & w0 & (F & R & R0 & C) & q'). exists L, o, w0. split; auto.
    split; auto. split; [|split].
    + intros l. simpl. rewrite E. apply R.
    + simpl. rewrite E. apply R0.
    + intros n j H. simpl. rewrite E. apply C. auto.
Qed.

Lemma traced_read_resource id base name w (Q : list effect -> outcome (result slice io_kind) -> world -> Prop) :
  (forall L o w', quiet_log L -> w_files w' = w_files w -> Q L o w') ->
  traced (read_resource (FileStorage id base) name) w Q.
Proof.
  intros q. simpl. apply traced_bind, traced_path_exists. destruct (on_disk _ w).
  - apply traced_mmap. intros L o w' H F. apply q; auto. apply quiet_app; auto. repeat constructor.
  - apply traced_ret. apply q; repeat constructor.
Qed.

Lemma traced_read b e id base name expected w (Q : list effect -> outcome (result slice rs_error) -> world -> Prop) :
  (forall L o w', quiet_log L -> w_files w' = w_files w -> Q L o w') ->
  traced (read b e (FileStorage id base) name expected) w Q.
Proof.
  intros q. unfold read, mtry. apply traced_bind, traced_read_resource. intros L o w1 H1 F1.
  destruct o as [[d|x]| | |]; try (apply q; auto; fail).
  - apply traced_bind, traced_read_resource. intros L2 o2 w2 H2 F2.
    destruct o2 as [[d2|x]| | |]; try (apply q; [apply quiet_app; auto|congruence]).
    + apply traced_lift. apply q; [|congruence]. rewrite app_nil_r. apply quiet_app; auto.
    + apply traced_ret. apply q; [|congruence]. rewrite app_nil_r. apply quiet_app; auto.
  - apply traced_ret. rewrite app_nil_r. apply q; auto.
Qed.

Lemma traced_create id base name w (Q : list effect -> outcome (result stream io_kind) -> world -> Prop) :
  let st := FileStorage id base in
  (forall L w', quiet_log L -> w_files w' = act (Create (res_key st name)) (w_files w) ->
     Q (L ++ [Create (res_key st name)]) (Ret (Ok (SFile (res_key st name) 0))) w') ->
  (forall L k w', quiet_log L -> w_files w' = w_files w -> Q L (Ret (Er k)) w') ->
  traced (create_output_stream st name) w Q.
Proof.
  intros st q1 q2. unfold create_output_stream. simpl. apply traced_bind, traced_path_exists.
  unfold mtry. apply traced_bind.
  assert (X : forall L w1, quiet_log L -> w_files w1 = w_files w -> traced (file_create (res_key st name)) w1
     (fun L2 o2 w2 => Q ([Quiet] ++ L ++ L2) o2 w2)).
  { intros L w1 HL F. unfold file_create. destruct (is_dir (res_key st name) w1) eqn:D1.
    - apply (traced_syscall _ w1 Quiet (Ret (Er KOther)) w1); auto; [|discriminate|].
      + intros l. change (is_dir (res_key st name) (set_faults l w1)) with (is_dir (res_key st name) w1). rewrite D1. auto.
      + apply q2; auto. repeat apply quiet_app; auto; repeat constructor.
    - destruct (is_dir (parent (res_key st name)) w1) eqn:D2.
      + eapply (traced_syscall _ w1 (Create (res_key st name)) _ (set_files (kupd (res_key st name) (Some []) (w_files w1)) w1)); auto; [|discriminate|].
        * intros l. change (is_dir (res_key st name) (set_faults l w1)) with (is_dir (res_key st name) w1).
          change (is_dir (parent (res_key st name)) (set_faults l w1)) with (is_dir (parent (res_key st name)) w1).
          rewrite D1, D2. reflexivity.
        * rewrite app_assoc. apply q1; [|simpl; rewrite F; auto]. apply quiet_app; auto; repeat constructor.
      + eapply (traced_syscall _ w1 Quiet (Ret (Er (if file_on_path (parent (res_key st name)) w1 then KOther else KNotFound))) w1); auto; [|discriminate|].
        * intros l. change (is_dir (res_key st name) (set_faults l w1)) with (is_dir (res_key st name) w1).
          change (is_dir (parent (res_key st name)) (set_faults l w1)) with (is_dir (parent (res_key st name)) w1).
          rewrite D1, D2. reflexivity.
        * apply q2; auto. repeat apply quiet_app; auto; repeat constructor. }
  destruct (on_disk (key_of base) w).
  - apply traced_ret. apply (X []); auto. apply quiet_nil.
  - apply traced_dirs; intros D.
    + apply traced_ret. apply q2; auto. repeat constructor.
    + apply (X [Quiet]); auto. repeat constructor.
Qed.

Lemma traced_write_size b e v k p w (Q : list effect -> outcome (result unit io_kind * stream) -> world -> Prop) :
  Q [Put k p (le_bytes 8 v)] (Ret (Ok tt, SFile k (p + 8))) (file_write k p (le_bytes 8 v) w) ->
  traced (write_size b e v (SFile k p)) w Q.
Proof.
  intros q. unfold write_size. apply traced_bind, traced_lift. rewrite write_size_bytes. simpl app.
  assert (L8 := len_le_bytes 8 v). apply traced_write_all.
  - intros H. rewrite H in L8. discriminate.
  - intros _. rewrite L8. exact q.
Qed.
Lemma traced_padding k p w (Q : list effect -> outcome (result unit io_kind * stream) -> world -> Prop) :
  Q [Put k p (zeros 8)] (Ret (Ok tt, SFile k (p + 8))) (file_write k p (zeros 8) w) ->
  traced (write_padding (SFile k p)) w Q.
Proof. intros q. unfold write_padding. apply traced_write_all; [discriminate|]. intros _. exact q. Qed.

Lemma traced_seek k p w (Q : list effect -> outcome (result unit io_kind * stream) -> world -> Prop) :
  Q [Quiet] (Ret (Ok tt, SFile k 0)) w -> traced (seek_start (SFile k p)) w Q.
Proof.
  intros q. simpl. apply traced_bind. apply (traced_syscall _ w Quiet (Ret (Ok tt)) w); auto; [discriminate|].
  apply traced_ret. exact q.
Qed.
