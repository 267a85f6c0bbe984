From stdpp Require Import gmap strings list.
From Verif.Model Require Import Base Num PropMap.
From Verif.Spec Require Import PropsSpec.

Section PropsProofs.
Context {T : Type} {N : Num T}.
Implicit Types p q : props T.

Lemma lookup_set p k v k' : props_lookup (props_Set p k v) k' = if String.eqb k k' then Some v else props_lookup p k'.
Proof.
  unfold props_lookup, props_Set. destruct (String.eqb_spec k k') as [->|H]; [apply lookup_insert|now apply lookup_insert_ne].
Qed.
Lemma lookup_remove p k k' : props_lookup (props_Remove p k) k' = if String.eqb k k' then None else props_lookup p k'.
Proof.
  unfold props_lookup, props_Remove. destruct (String.eqb_spec k k') as [->|H]; [apply lookup_delete|now apply lookup_delete_ne].
Qed.
Lemma lookup_mergein (l : list (string * gval T)) : forall p k, NoDup (map fst l) ->
  props_lookup (props_MergeIn p l) k = match list_find (fun kv => kv.1 = k) l with Some (_, kv) => Some kv.2 | None => props_lookup p k end.
Proof.
  induction l as [|[a v] l IH]; intros p k Hn; [reflexivity|]. cbn in Hn. inversion Hn as [|? ? Ha Hl]; subst.
  unfold props_MergeIn. cbn [fold_left]. change (fold_left _ l ?q) with (props_MergeIn q l). rewrite IH by exact Hl.
  cbn [list_find fst snd]. rewrite lookup_set. destruct (String.eqb_spec a k) as [->|Hk].
  - rewrite decide_True by reflexivity. destruct (list_find _ l) as [[i kv]|] eqn:E; [|reflexivity].
    exfalso. apply list_find_Some in E. destruct E as (E & <- & _). apply Ha. apply elem_of_list_In, elem_of_list_fmap. exists kv. split; [reflexivity|].
    eapply elem_of_list_lookup_2; exact E.
  - rewrite decide_False by exact Hk. destruct (list_find _ l) as [[i kv]|]; reflexivity.
Qed.
Lemma lookup_merge_perm p q l k : l ≡ₚ props_entries q ->
  props_lookup (props_MergeIn p l) k = match props_lookup q k with Some v => Some v | None => props_lookup p k end.
Proof.
  intros Hp. assert (Hn : NoDup (map fst l)).
  { apply NoDup_ListNoDup. eapply NoDup_Permutation_proper; [eapply fmap_Permutation; exact Hp|]. apply NoDup_fst_map_to_list. }
  rewrite lookup_mergein by exact Hn. destruct (list_find _ l) as [[i kv]|] eqn:E.
  - apply list_find_Some in E. destruct E as (E & <- & _). apply elem_of_list_lookup_2 in E.
    unfold props_entries in Hp. rewrite Hp in E. destruct kv as [k v]. apply elem_of_map_to_list in E. unfold props_lookup. cbn. now rewrite E.
  - apply list_find_None in E. destruct (props_lookup q k) as [v|] eqn:F; [|reflexivity]. exfalso.
    assert (G : (k, v) ∈ l) by (unfold props_entries in Hp; rewrite Hp; now apply elem_of_map_to_list).
    rewrite Forall_forall in E. apply elem_of_list_In in G. exact (E _ G eq_refl).
Qed.
Lemma Permutation_std (l l' : list (string * gval T)) : Permutation l l' -> l ≡ₚ l'.
Proof. exact (fun H => H). Qed.

Lemma mean_ext ops : forall f g : string -> option (gval T), (forall k, f k = g k) -> forall k, mean_props f ops k = mean_props g ops k.
Proof.
  induction ops as [|o ops IH]; intros f g H; [exact H|]. cbn [mean_props fold_left]. apply IH.
  intros k. destruct o; cbn; try rewrite H; reflexivity.
Qed.
Lemma run_means ops : forall p k, props_lookup (run_props p ops) k = mean_props (props_lookup p) ops k.
Proof.
  induction ops as [|o ops IH]; intros p; [reflexivity|]. intros k.
  change (run_props p (o :: ops)) with (run_props (run_prop p o) ops). rewrite IH.
  change (mean_props (props_lookup p) (o :: ops)) with (mean_props (mean_prop (props_lookup p) o) ops). apply mean_ext.
  intros k'. destruct o; cbn; [apply lookup_set|apply lookup_remove|now apply lookup_merge_perm|reflexivity].
Qed.

Lemma C57_getters_proof p k :
  gets (as_string (props_lookup p k)) EmptyString (props_String p k) /\
  gets (as_bool (props_lookup p k)) false (props_Bool p k) /\
  gets (as_int (props_lookup p k)) 0%Z (props_Int p k) /\
  gets (as_float (props_lookup p k)) f0 (props_Float64 p k).
Proof.
  unfold props_String, props_Bool, props_Int, props_Float64. destruct (props_lookup p k) as [[]|]; repeat split.
Qed.

Lemma C57_ext_proof p q : (forall k, props_lookup p k = props_lookup q k) -> p = q.
Proof. exact (map_eq (M := gmap string) p q). Qed.
Lemma C57_len_proof p : exists keys, List.NoDup keys /\ (forall k, In k keys <-> props_lookup p k <> None) /\ props_len p = zlen keys.
Proof.
  exists (map fst (props_entries p)). split; [apply NoDup_ListNoDup; apply NoDup_fst_map_to_list|]. split.
  - intros k. rewrite <- elem_of_list_In. split.
    + intros H. apply elem_of_list_fmap in H. destruct H as ([k' v] & -> & H). unfold props_entries in H. apply (elem_of_map_to_list (M := gmap string)) in H. unfold props_lookup. cbn. now rewrite H.
    + intros H. destruct (props_lookup p k) as [v|] eqn:E; [|congruence]. apply elem_of_list_fmap. exists (k, v). split; [reflexivity|]. now apply (elem_of_map_to_list (M := gmap string)).
  - unfold props_len, zlen. rewrite map_length. reflexivity.
Qed.
End PropsProofs.
