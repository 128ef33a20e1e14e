(** Schedules for the examples of T_Life.v. *)
From Verif Require Import LifeModel.
Definition life_to (n : nat) (l : list lact) : life := match life_run (life_init n) l with Next s => s | _ => life_init 0 end.
(** Thread 0 gets a reference; then thread 1 erases the record while thread 0 drops its reference. *)
Definition get_sched : list lact := [AReadLock 0; AGet 0; AStep 0; AStep 0; AStep 0; AStep 0; AReadUnlock 0].
Definition race_sched : list lact := get_sched ++ [AWriteLock 1; AErase 1; AStep 1; ADrop 0; AStep 1; AStep 0; AStep 1; AStep 0; AStep 0; AStep 0].
Definition end_sched : list lact := race_sched ++ [AStep 1; AStep 0; AWriteUnlock 1].
Ltac fx := repeat match goal with
  | |- _ /\ _ => split
  | |- _ \/ _ => right; exists 0, (LThread LIdle 1)
  | |- forall t th, _ -> _ => intros [|[|?]] th Hth; vm_compute in Hth; try discriminate Hth; injection Hth as <-; reflexivity
  | |- _ < _ => cbn; lia
  | |- _ = _ => vm_compute; reflexivity
  end.
