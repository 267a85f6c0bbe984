(** C89: replacing the callbacks while the generator runs. *)
From Coq Require Import Lia.
From Verif.Model Require Import Base Num Pb Wire WireMsgs Worker Callbacks.
From Verif.Spec Require Import CallbackSpec.
From Verif.Proofs Require Import CallbackProofs.

(** Whatever is set in between, even nil: of a packet at most one function is told, it was set at some moment while the
    packet was handled, and it is given this packet, or this error. *)
Theorem C89_at_most_once :
  forall (F : Type) (err : option goerr) (data : list byte) (ms : list (move F)) (c : callbacks F),
    snd (handle err data c HErrTest ms) = [] \/
    exists k f, at_some_moment c ms k /\
      ((cb_packet k = Some f /\ snd (handle err data c HErrTest ms) = [CallPacket f data]) \/
       exists e, err = Some e /\ cb_error k = Some f /\ snd (handle err data c HErrTest ms) = [CallError f e]).
Proof. exact @C89_once_proof. Qed.
Print Assumptions C89_at_most_once.

(** Three moves are enough, whatever is set in between. *)
Theorem C89_ends :
  forall (F : Type) (err : option goerr) (data : list byte) (c : callbacks F) (ms : list (move F)) p,
    In p [HErrTest; HNextTest] -> (3 <= moves ms)%nat ->
    fst (handle err data c p ms) = HDone \/ fst (handle err data c p ms) = HPanic.
Proof. exact @C89_ends_proof. Qed.
Print Assumptions C89_ends.

(** As long as functions are only replaced by functions nothing panics. *)
Theorem C89_no_panic_partial :
  forall (F : Type) (err : option goerr) (data : list byte) (c : callbacks F) (ms : list (move F)) p,
    only_functions ms -> In p [HErrTest; HNextTest] -> fst (handle err data c p ms) <> HPanic.
Proof. exact @C89_no_panic_proof. Qed.
Print Assumptions C89_no_panic_partial.

(** A packet that could be encoded, and a notification, go where they should have gone at some moment of the handling. *)
Theorem C89_packet_partial :
  forall (F : Type) (data : list byte) (ms : list (move F)) (c : callbacks F),
    fst (handle None data c HErrTest ms) = HDone ->
    exists k, at_some_moment c ms k /\ snd (handle None data c HErrTest ms) = wanted None data k.
Proof. exact @C89_packet_proof. Qed.
Print Assumptions C89_packet_partial.
Theorem C89_next_partial :
  forall (F : Type) (err : option goerr) (data : list byte) (ms : list (move F)) (c : callbacks F),
    fst (handle err data c HNextTest ms) = HDone ->
    exists k, at_some_moment c ms k /\ snd (handle err data c HNextTest ms) = wanted_next k.
Proof. exact @C89_next_proof. Qed.
Print Assumptions C89_next_partial.

(** So does an error, if OnError is not called meanwhile, or was called before and is only given functions. *)
Theorem C89_error_partial :
  forall (F : Type) (e : goerr) (data : list byte) (ms : list (move F)) (c : callbacks F),
    error_left_alone ms \/ (cb_error c <> None /\ only_functions ms) ->
    fst (handle (Some e) data c HErrTest ms) = HDone ->
    exists k, at_some_moment c ms k /\ snd (handle (Some e) data c HErrTest ms) = wanted (Some e) data k.
Proof.
  intros F e data ms c [H|[H1 H2]]; [exact (C89_error_alone_proof e data ms c H)|exact (C89_error_set_proof e data ms c H1 H2)].
Qed.
Print Assumptions C89_error_partial.

(** With callbacks that stay this is the worker of C80. *)
Theorem C89_unchanged :
  forall (F T : Type) (B : Bits64 T) (p : pbPacket T) (c : callbacks F) n, (3 <= n)%nat ->
    let '(data, ok) := part_msg d_Packet (w_Packet p) in
    let (pc, calls) := handle (if ok then None else Some ErrUTF8) data c HErrTest (repeat MStep n) in
    pc = HDone /\ flat_map told calls =
      deliver (match cb_error c with Some _ => true | None => false end) (match cb_packet c with Some _ => true | None => false end) p.
Proof. intros F T B. exact (@C89_unchanged_proof F T B). Qed.
Print Assumptions C89_unchanged.

(** The full property is false. Any callback that is taken away, with nil, at the wrong moment ends the program. *)
Theorem C89_nil_refuted :
  forall (F : Type) (e : goerr) (data : list byte) (c : callbacks F) (f : F),
    (cb_packet c = Some f -> handle None data c HErrTest [MStep; MStep; MSet (SetOnPacket None); MStep] = (HPanic, [])) /\
    (cb_error c = Some f -> handle (Some e) data c HErrTest [MStep; MSet (SetOnError None); MStep] = (HPanic, [])) /\
    (cb_next c = Some f -> handle None data c HNextTest [MStep; MSet (SetOnNext None); MStep] = (HPanic, [])).
Proof.
  intros F e data c f. split; [exact (C89_nil_packet_proof data c f)|]. split; [exact (C89_nil_error_proof e data c f)|].
  exact (C89_nil_next_proof None data c f).
Qed.
Print Assumptions C89_nil_refuted.

(** And without nil: OnError is set and then OnPacket, and still the packet that failed is handed to OnPacket, which at no
    moment was where it belonged. *)
Theorem C89_order_refuted :
  forall (F : Type) (f g : F) (e : goerr) (data : list byte),
    let ms := [MStep; MSet (SetOnError (Some f)); MSet (SetOnPacket (Some g)); MStep; MStep] in
    handle (Some e) data (mkCallbacks None None None) HErrTest ms = (HDone, [CallPacket g data]) /\
    only_functions ms /\
    forall k, at_some_moment (mkCallbacks None None None) ms k -> wanted (Some e) data k <> [CallPacket g data].
Proof. exact @C89_order_proof. Qed.
Print Assumptions C89_order_refuted.

(** Function 1 for packets is replaced by 2 after the test: 2 gets the packet. The same for errors and notifications;
    functions are numbers here. *)
Example C89_applies :
  let c := mkCallbacks (Some 3%nat) (Some 1%nat) (Some 5%nat) in
  let ms := [MStep; MStep; MSet (SetOnPacket (Some 2%nat)); MStep] in
  let es := [MStep; MSet (SetOnError (Some 4%nat)); MStep; MStep] in
  let ns := [MStep; MSet (SetOnNext (Some 6%nat)); MStep; MStep] in
  (only_functions ms /\ moves ms = 3%nat /\ handle None [7%Z] c HErrTest ms = (HDone, [CallPacket 2%nat [7%Z]])) /\
  (only_functions es /\ handle (Some ErrUTF8) [7%Z] c HErrTest es = (HDone, [CallError 4%nat ErrUTF8])) /\
  (error_left_alone ms /\ handle (Some ErrUTF8) [7%Z] c HErrTest ms = (HDone, [CallError 3%nat ErrUTF8])) /\
  (only_functions ns /\ handle None [] c HNextTest ns = (HDone, [CallNext 6%nat])).
Proof. repeat split; repeat constructor. Qed.
