(** C85: iterating over tracks and routes. *)
From Verif.Model Require Import Base Num NumF64 Geo Curve PropMap Pb Types TypesSnap Track Route Navigator Each.
From Verif.Spec Require Import EachSpec Examples.
From Verif.Proofs Require Import EachProofs.
Open Scope num_scope.

(** C85. EachTrack and EachRoute, with a callback that may do anything but change the list: the callback gets every
    element once, in order, with its index, up to its first answer false; the iteration ends. *)
Theorem C85_tracks_partial :
  forall (T S : Type) (r : S -> route T) (fn : nat -> track T -> S -> bool * S) (fuel : nat) (s : S),
    (forall i t s, rt_tracks (r (snd (fn i t s))) = rt_tracks (r s)) -> (List.length (rt_tracks (r s)) < fuel)%nat ->
    exists calls s', EachTrack fuel r fn s = Ret (calls, s') /\ rt_tracks (r s') = rt_tracks (r s) /\
      goes_through (rt_tracks (r s)) calls.
Proof. intros T S r fn fuel s. exact (C85_reads_proof (fun s => rt_tracks (r s)) fn fuel s). Qed.
Print Assumptions C85_tracks_partial.
Theorem C85_routes_partial :
  forall (T S : Type) (n : S -> navigator T) (fn : nat -> route T -> S -> bool * S) (fuel : nat) (s : S),
    (forall i t s, n_routes (n (snd (fn i t s))) = n_routes (n s)) -> (List.length (n_routes (n s)) < fuel)%nat ->
    exists calls s', EachRoute fuel n fn s = Ret (calls, s') /\ n_routes (n s') = n_routes (n s) /\
      goes_through (n_routes (n s)) calls.
Proof. intros T S n fn fuel s. exact (C85_reads_proof (fun s => n_routes (n s)) fn fuel s). Qed.
Print Assumptions C85_routes_partial.
(** Generator.Each, whose callbacks cannot change the list it goes through. *)
Theorem C85_devices :
  forall (S D : Type) (devices : S -> list D) (fn : nat -> D -> S -> bool * S) (fuel : nat) (s : S),
    (forall i d s, devices (snd (fn i d s)) = devices s) -> (List.length (devices s) < fuel)%nat ->
    exists calls s', EachDevice fuel devices fn s = Ret (calls, s') /\ devices s' = devices s /\ goes_through (devices s) calls.
Proof. intros S D devices fn fuel s. exact (C85_reads_proof devices fn fuel s). Qed.
Print Assumptions C85_devices.

(** A callback that removes the track (the route) it is given: every second one is passed over, and is still there
    at the end. *)
Theorem C85_remove_tracks_refuted :
  forall (T : Type) (N : Num T) (r : route T) (fuel : nat),
    NoDup (map tk_id (rt_tracks r)) -> Forall (fun t => (1 <= slen (tk_id t) <= 36)%Z) (rt_tracks r) -> (List.length (rt_tracks r) < fuel)%nat ->
    exists calls r', EachTrack fuel (fun r => r) (fun _ t r => (true, snd (route_RemoveTrack r (tk_id t)))) r = Ret (calls, r') /\
      map (fun c => snd (fst c)) calls = odd_places (rt_tracks r) /\ rt_tracks r' = even_places (rt_tracks r).
Proof. exact @C85_remove_tracks_proof. Qed.
Print Assumptions C85_remove_tracks_refuted.
Theorem C85_remove_routes_refuted :
  forall (T : Type) (N : Num T) (n : navigator T) (fuel : nat),
    NoDup (map rt_id (n_routes n)) -> Forall (fun r => (1 <= slen (rt_id r) <= 36)%Z) (n_routes n) -> (List.length (n_routes n) < fuel)%nat ->
    exists calls n', EachRoute fuel (fun n => n) (fun _ r n => (true, snd (nav_RemoveRoute n (rt_id r)))) n = Ret (calls, n') /\
      map (fun c => snd (fst c)) calls = odd_places (n_routes n) /\ n_routes n' = even_places (n_routes n).
Proof. exact @C85_remove_routes_proof. Qed.
Print Assumptions C85_remove_routes_refuted.

(** A callback that adds a track (a route) at every call, say a copy of the one it is given under another ID: the iteration never ends. *)
Theorem C85_append_tracks_refuted :
  forall (T : Type) (N : Num T) (r : route T) (new : nat -> track T -> route T -> track T) (fuel : nat),
    rt_tracks r <> [] -> EachTrack fuel (fun r => r) (fun i t r => (true, AddTrack r (Some (new i t r)))) r = NoFuel.
Proof. exact @C85_append_proof. Qed.
Print Assumptions C85_append_tracks_refuted.
Theorem C85_append_routes_refuted :
  forall (T : Type) (N : Num T) (n : navigator T) (new : nat -> route T -> navigator T -> route T) (fuel : nat),
    n_routes n <> [] -> (forall i r n, ~ In (rt_id (new i r n)) (map rt_id (n_routes n))) ->
    EachRoute fuel (fun n => n) (fun i r n => (true, snd (nav_AddRoute n [Some (new i r n)]))) n = NoFuel.
Proof. exact @C85_append_routes_proof. Qed.
Print Assumptions C85_append_routes_refuted.

(** A route of three tracks: a callback that counts and stops at the second one, one that removes, one that adds. *)
Definition ex_three : route f64 :=
  RouteFromTracks [ex_track "a" [(0, 0); (0, 1)]%Z; ex_track "b" [(1, 1); (1, 2)]%Z; ex_track "c" [(2, 2); (2, 3)]%Z] "r" "#00ff00".
Example C85_tracks_example :
  let names l := map (fun c => (fst (fst c), tk_id (snd (fst c)), snd c)) l in
  match EachTrack 4 fst (fun i t s => (Nat.eqb i 0, (fst s, snd s + 1)%Z)) (ex_three, 0%Z) with
  | Ret (l, s) => names l = [(0%nat, "a"%string, true); (1%nat, "b"%string, false)] /\ snd s = 2%Z
  | _ => False
  end /\
  match EachTrack 4 (fun r => r) (fun _ t r => (true, snd (route_RemoveTrack r (tk_id t)))) ex_three with
  | Ret (l, r) => names l = [(0%nat, "a"%string, true); (1%nat, "c"%string, true)] /\ map tk_id (rt_tracks r) = ["b"%string]
  | _ => False
  end /\
  EachTrack 50 (fun r => r) (fun _ t r => (true, AddTrack r (Some t))) ex_three = NoFuel.
Proof. vm_compute. repeat split. Qed.
Example C85_tracks_hypotheses :
  NoDup (map tk_id (rt_tracks ex_three)) /\ Forall (fun t => (1 <= slen (tk_id t) <= 36)%Z) (rt_tracks ex_three) /\ List.length (rt_tracks ex_three) = 3%nat.
Proof.
  split; [|split; [|vm_compute; reflexivity]].
  - change (NoDup ["a"; "b"; "c"]%string). repeat constructor; cbn; intuition discriminate.
  - apply Forall_forall. intros t Ht. assert (E : In (slen (tk_id t)) (map (fun t => slen (tk_id t)) (rt_tracks ex_three))) by exact (in_map _ _ _ Ht).
    change (In (slen (tk_id t)) [1; 1; 1]%Z) in E. destruct E as [<-|[<-|[<-|[]]]]; split; discriminate.
Qed.
(** The same for routes. *)
Example C85_routes_example :
  map rt_id (n_routes ex_nav) = ["r1"; "r2"]%string /\
  match EachRoute 3 (fun n => n) (fun _ r n => (true, snd (nav_RemoveRoute n (rt_id r)))) ex_nav with
  | Ret (l, n) => map (fun c => rt_id (snd (fst c))) l = ["r1"%string] /\ map rt_id (n_routes n) = ["r2"%string]
  | _ => False
  end.
Proof. vm_compute. repeat split. Qed.
(** IDs that are never among those of the navigator: longer than all of them together. *)
Definition ex_fresh_id {T} (n : navigator T) : string := (String.concat "" (map rt_id (n_routes n)) ++ "x")%string.
Example C85_fresh_example :
  forall T (n : navigator T), ~ In (ex_fresh_id n) (map rt_id (n_routes n)).
Proof.
  intros T n H. unfold ex_fresh_id in H. revert H. generalize (map rt_id (n_routes n)). intros l H.
  assert (L : forall a b : string, (String.length a <= String.length (a ++ b) /\ String.length b <= String.length (a ++ b))%nat).
  { induction a as [|c a IH]; intros b; cbn; [split; [apply Nat.le_0_l|apply le_n]|]. destruct (IH b). split; [now apply le_n_S|now apply Nat.le_le_succ_r]. }
  assert (G : forall x, In x l -> (String.length x <= String.length (String.concat "" l))%nat).
  { clear H. induction l as [|a l IH]; intros x; [easy|]. intros [<-|Hx].
    - cbn. destruct l; [apply le_n|]. apply L.
    - cbn. destruct l as [|b l]; [easy|]. specialize (IH x Hx). etransitivity; [exact IH|]. etransitivity; [|apply L]. apply (L ""%string). }
  specialize (G _ H). revert G. generalize (String.concat "" l). intros s G.
  assert (E : forall s : string, String.length (s ++ "x") = Datatypes.S (String.length s)) by (clear; intros s; induction s as [|c s IH]; [reflexivity|exact (f_equal Datatypes.S IH)]).
  rewrite E in G. exact (Nat.nle_succ_diag_l _ G).
Qed.
(** Three devices, numbers here; the callback adds them up and stops at the second: the state is the list and the sum. *)
Example C85_devices_example :
  let fn := fun (i d : nat) (s : list nat * nat) => (negb (Nat.eqb i 1), (fst s, (snd s + d)%nat)) in
  EachDevice 4 fst fn ([10; 20; 30]%nat, 0%nat) = Ret ([(0, 10, true); (1, 20, false)]%nat, ([10; 20; 30]%nat, 30%nat)) /\
  forall i d s, fst (snd (fn i d s)) = fst s.
Proof. split; reflexivity. Qed.
