(** * Specification vocabulary for the batch workflow (C120 - C125). *)
From Coq Require Import Reals.
From Verif Require Import Base ReaderModel HRModel OpModel OpSpec LsfModel.
Open Scope nat_scope.

(** The situation when the script is started: no job, no log; [temp] and [out]: files left by earlier runs. *)
Definition initially (temp : list (string * option R)) (out : option (nat * option (list (list R)))) : world :=
  mkWorld Start [] [] temp out.
(** The combination has been submitted. *)
Definition combination_submitted (w : world) : Prop := w_phase w = WaitCombine \/ w_phase w = Finished.
(** A file for element (i, j) exists. *)
Definition element_exists (i j : nat) (w : world) : Prop := exists c, In (element_name i j, c) (w_temp w).
(** [m]: the symmetrised matrix of the elements computed by the jobs, all of which succeeded. *)
Definition covariance_of (n : nat) (elem : nat -> nat -> option R) (m : list (list R)) : Prop :=
  exists v, (forall i j, i < n -> j < n -> elem i j = Some (v i j)) /\ is_matrix n (fun i j => (v i j + v j i) / 2)%R m.
(** Some element job is queued or running. *)
Definition element_job_active (w : world) : Prop := exists i j s, In (JElement i j, s) (w_queue w).

(** An endless schedule, and the situation at time t. *)
Fixpoint at_time na elem (sched : nat -> event) (w : world) (t : nat) : world :=
  match t with O => w | S t' => step na elem (at_time na elem sched w t') (sched t') end.
(** The schedule is fair: as long as some step would change something, a step that changes something is
    eventually taken. *)
Definition fair na elem (sched : nat -> event) (w : world) : Prop :=
  forall t, (exists e, step na elem (at_time na elem sched w t) e <> at_time na elem sched w t) ->
  exists t', t <= t' /\ at_time na elem sched w (S t') <> at_time na elem sched w t'.
(** The steps of a finite schedule that change something. *)
Inductive changes na elem : world -> list event -> nat -> Prop :=
  | ch_nil w : changes na elem w [] 0
  | ch_idle w e es k : step na elem w e = w -> changes na elem w es k -> changes na elem w (e :: es) k
  | ch_step w e es k : step na elem w e <> w -> changes na elem (step na elem w e) es k -> changes na elem w (e :: es) (S k).

(** Monte Carlo script: the phases it is in after polling a history of directory contents. *)
Definition mcrun (ntrials : nat) (history : list mcdirs) : mcphase := fold_left (mcscript ntrials) history MCInitial.
(** A path that find prints for an absolute directory. *)
Definition absolute (p : string) : Prop := exists s, p = String "/" s.
(** Element files left by an earlier run. *)
Definition left_over (files : list (string * R)) : list (string * option R) := map (fun f => (fst f, Some (snd f))) files.
