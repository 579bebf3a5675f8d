(** Vocabulary: what a process sees that opens an archive while another process
    is building it.  Moments, schedules and single reads are in MomentSpec.v. *)
From Verif Require Import Base Codec CodecSpec Structs StructsSpec Views ViewsSpec.
From Verif Require Import Storage PathFacts StorageSpec Writers WritersSpec MultiViews MultiSpec.
From Verif Require Import Archives ArchiveSpec BuilderSpec MomentSpec.
Local Open Scope list_scope.
Local Open Scope Z_scope.

(** * The writer *)
(** A new builder, then calls on it and on what is obtained from it. *)
Definition build_session (b : build) (e : endian) (lim : Z) (a : adesc) (st : storage) (ops : list bop)
    : M (result (list bool * bstate) rs_error) :=
  let? st' := builder_new b e a st in
  let! x := brun b e lim a ops (new_bstate st') in
  mret (Ok x).

(** * The parts of an archive *)
(** Every part of the opened archive [x] is as the predicates demand for what
    the plan [A] has in its place: [B] for what is set at once, [V] for vectors,
    [N] for multivectors.  A sub-archive that is missing is not looked into. *)
Fixpoint plan_shown (B : string -> string -> option (list Z) -> option slice -> Prop)
    (V : string -> typed_res -> vslot -> option slice -> Prop)
    (N : string -> multi_res -> mslot -> option slice * option slice -> Prop)
    (a : adesc) (base : string) (A : plan) (x : archive) {struct a} : Prop :=
  let 'mkArchive _ _ structs vectors multis raws subs := a in
  (forall k r, nth_error structs k = Some r -> B base (tr_name r) (pl_structs A k) (nth k (ar_structs x) None)) /\
  (forall k r, nth_error vectors k = Some r -> V base r (pl_vecs A k) (nth k (ar_vectors x) None)) /\
  (forall k r, nth_error multis k = Some r -> N base r (pl_muls A k) (nth k (ar_multis x) (None, None))) /\
  (forall k r, nth_error raws k = Some r -> B base (rr_name r) (pl_raws A k) (nth k (ar_raws x) None)) /\
  (fix go (k : nat) (l : list (string * adesc * bool)) : Prop :=
     match l with
     | [] => True
     | (n, a', _) :: l =>
         match nth k (ar_subs x) None with
         | Some x' => exists A', pl_subs A k = Some A' /\ plan_shown B V N a' (path_join base n) A' x'
         | None => True
         end /\ go (S k) l
     end) O subs.

(** * The reader *)
(** Archive::open (archive.rs:589-651) in a new process; [W 0], [W 1], ... are
    the worlds at the times of its steps.  A part that starts at step [i] gives
    its result and the number of the next step.  Each read has six steps
    ([read_during]); one that fails early does not use all of them. *)
Section Env.
Variables (b : build) (e : endian) (W : nat -> world).

Definition during (A : Type) : Type := nat -> outcome (result A rs_error * nat).
Definition dret {A} (x : result A rs_error) : during A := fun i => Ret (x, i).
Definition dtry {A B} (m : during A) (f : A -> during B) : during B := fun i =>
  r <- m i ;;
  match fst r with Ok x => f x (snd r) | Er x => Ret (Er x, snd r) end.
Definition dpart {A} (opt : bool) (m : during A) : during (option A) := fun i =>
  r <- m i ;;
  match fst r with
  | Ok x => Ret (Ok (Some x), snd r)
  | Er x => Ret (if opt then Ok None else Er x, snd r)
  end.
Fixpoint deach {A B} (f : A -> during B) (l : list A) : during (list B) :=
  match l with
  | [] => dret (Ok [])
  | x :: r => dtry (f x) (fun y => dtry (deach f r) (fun ys => dret (Ok (y :: ys))))
  end.
Definition dread (base name : string) (expected : list Z) : during slice := fun i =>
  r <- read_during b e (fun n => W (i + n)%nat) base name expected ;;
  Ret (r, (i + 6)%nat).

Definition dtyped (base : string) (r : typed_res) := dpart (tr_opt r) (dread base (tr_name r) (tr_schema r)).
Definition dmulti (base : string) (r : multi_res) : during (option slice * option slice) :=
  dtry (dpart (mr_opt r) (dread base (mr_index r) (index_schema (mr_schema r)))) (fun i =>
  dtry (dpart (mr_opt r) (dread base (mr_name r) (mr_schema r))) (fun d =>
  dret (Ok (i, d)))).
Definition draw (base : string) (r : raw_res) := dpart (rr_opt r) (dread base (rr_name r) (rr_schema r)).

Fixpoint open_during (a : adesc) (base : string) {struct a} : during archive :=
  let 'mkArchive name schema structs vectors multis raws subs := a in
  dtry (dread base (signature_name name) schema) (fun _ =>
  dtry (deach (dtyped base) structs) (fun ss =>
  dtry (deach (dtyped base) vectors) (fun vs =>
  dtry (deach (dmulti base) multis) (fun ms =>
  dtry (deach (draw base) raws) (fun rs =>
  dtry ((fix go (l : list (string * adesc * bool)) : during (list (option archive)) :=
           match l with
           | [] => dret (Ok [])
           | (n, a', opt) :: r =>
               dtry (dpart opt (open_during a' (path_join base n))) (fun y =>
               dtry (go r) (fun ys => dret (Ok (y :: ys))))
           end) subs) (fun us =>
  dret (Ok (mkOpened ss vs ms rs us)))))))).

(** * What may be seen *)
(** The bytes behind a slice are the same at all times from step [i] on. *)
Definition stays (base name : string) (i : nat) (sl : slice) : Prop :=
  slice_ok sl /\ forall j, (i <= j)%nat -> look (W j) base name (sl_len sl) = Ret (sl_bytes sl).

(** Bytes set at once: all of them. *)
Definition seen_bytes (base name : string) (i : nat) (o : option (list Z)) (y : option slice) : Prop :=
  match y with
  | Some sl => o = Some (sl_bytes sl) /\ stays base name i sl
  | None => True
  end.
(** A vector that was written element by element: a beginning of its final
    data, and if no write was seen half done, nothing or all. *)
Definition beginning (torn : Prop) (d D : list Z) : Prop :=
  (exists q, D = d ++ q) /\ (~ torn -> d = [] \/ d = D).
Definition seen_vec (torn : Prop) (base : string) (i : nat) (r : typed_res) (o : vslot) (y : option slice) : Prop :=
  match y with
  | None => True
  | Some sl =>
      stays base (tr_name r) i sl /\
      match o with
      | VSet d => sl_bytes sl = d
      | VClosed l => exists D, array_of (tr_struct r) D (elements (tr_struct r) l) /\
          records (tr_struct r) D = elements (tr_struct r) l /\ beginning torn (sl_bytes sl) D
      | _ => False
      end
  end.
(** A multivector: index [I] and data [D] are final.  If the index is not seen
    empty, the data are seen, unless they are too short to matter. *)
Definition final_multi (r : multi_res) (l : list (list (nat * list (nat * Z)))) (I D : list Z) : Prop :=
  forall i d, slice_ok i -> slice_ok d -> sl_bytes i = I -> sl_bytes d = D ->
    mav_shows (mr_types r) (mr_size r) (mr_bits r) (mkMav i d) (buckets (mr_types r) l).
Definition seen_mul (torn : Prop) (base : string) (i : nat) (r : multi_res) (o : mslot) (y : option slice * option slice) : Prop :=
  y = (None, None) \/
  exists l I D, o = MClosed l /\ final_multi r l I D /\
    match fst y with Some x => stays base (mr_index r) i x /\ beginning torn (sl_bytes x) I | None => True end /\
    match snd y with Some d => stays base (mr_name r) i d /\ beginning torn (sl_bytes d) D | None => True end /\
    match y with
    | (Some x, Some d) => sl_len x = 0 \/ sl_len d = 0 /\ len D <= 8 \/ sl_bytes d = D
    | _ => True
    end.
(** The archive was opened until step [i]; [A] is what the builder will have
    written in the end. *)
Definition seen_plan (torn : Prop) (a : adesc) (base : string) (i : nat) (A : plan) (x : archive) : Prop :=
  plan_shown (fun base name => seen_bytes base name i) (fun base r => seen_vec torn base i r) (fun base r => seen_mul torn base i r)
    a base A x.
(** No required part is missing. *)
Fixpoint complete (a : adesc) (x : archive) {struct a} : Prop :=
  let 'mkArchive _ _ structs vectors multis raws subs := a in
  (forall k r, nth_error structs k = Some r -> tr_opt r = false -> nth k (ar_structs x) None <> None) /\
  (forall k r, nth_error vectors k = Some r -> tr_opt r = false -> nth k (ar_vectors x) None <> None) /\
  (forall k r, nth_error multis k = Some r -> mr_opt r = false ->
     fst (nth k (ar_multis x) (None, None)) <> None /\ snd (nth k (ar_multis x) (None, None)) <> None) /\
  (forall k r, nth_error raws k = Some r -> rr_opt r = false -> nth k (ar_raws x) None <> None) /\
  (fix go (k : nat) (l : list (string * adesc * bool)) : Prop :=
     match l with
     | [] => True
     | (_, a', opt) :: l =>
         match nth k (ar_subs x) None with
         | Some x' => complete a' x'
         | None => opt = true
         end /\ go (S k) l
     end) O subs.
End Env.
