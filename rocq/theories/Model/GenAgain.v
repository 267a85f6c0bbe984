(** Run called again on a generator all of whose goroutines have returned (generator.go 191-204). The channels, the
    context, the packet and the devices are those of the first Run; goroutines and wait group are new. The ticker was
    stopped by the first Run (line 209); the model lets it tick all the same. *)
From Verif.Model Require Import Base Generator GenConc.

Definition run_again {D : Type} (c : genConf) (s : state D) : state D :=
  mkState (s_closed s) (s_devs s) (s_packet s) (s_index s) RSelect (repeat WSelect (c_workers c)) NSelect (s_sliceCh s)
    (s_waitCh s) (s_nextCh s) (c_workers c + 2) (s_out s) (s_ticks s) (s_calls s).
