(** Proofs about the pedigree matrices of files (C97). *)
From Verif Require Import Base Types Uncertainty Spec_Uncertainty Uncertainty_proofs Pedigree Spec_Pedigree Pedigree_proofs
  Schema Extraction Spec_Extraction.

Lemma said_no_matrix pyfloat pyint filepath x d :
  dataset_said pyfloat pyint filepath x d -> Forall (fun e => e_ped e = None) (d_exchanges d).
Proof.
  intros (_ & _ & _ & _ & _ & _ & _ & _ & _ & _ & _ & _ & _ & _ & _ & (flows & _ & _ & H) & _).
  induction H as [|y e l es He _ IH]; constructor; [|done]. unfold exchange_said in He. tauto.
Qed.
Lemma published_label_empty version : published version "further technology correlation" = [].
Proof. unfold published. cbn. by destruct (version =? "original")%string, (version =? "Ciroth et al")%string. Qed.
Lemma last_label_no_variance version pm s q : ~ variance_of version (pm ++ [("further technology correlation"%string, s)]) q.
Proof.
  revert q. induction pm as [|[l z] pm IH]; intros q; cbn; inversion 1 as [|? ? k m ? q' Hk Hm Hq]; subst.
  - by rewrite published_label_empty in Hm.
  - by eapply IH.
Qed.
Lemma matrix_of_file pyfloat pyint x u pm version :
  uncertainty_said pyfloat pyint x u -> u_pedigree u = Some pm -> pm <> [] -> forall q, ~ variance_of version pm q.
Proof.
  intros (l & dist & pre & post & _ & _ & _ & _ & _ & _ & _ & _ & _ & _ & _ & _ & _ & _ & _ & _ & ped & Hp & Hs) Hu Hne q.
  assert (ped = pm) as -> by congruence. unfold pedigree_said in Hs. destruct (kid "pedigreeMatrix" x).
  - destruct Hs as (r & c & t & g & f & -> & _).
    apply (last_label_no_variance version [("reliability", r); ("completeness", c); ("temporal correlation", t); ("geographical correlation", g)]%string f).
  - destruct ((l =? "lognormal") || (l =? "normal"))%string; [|done]. subst.
    apply (last_label_no_variance version [("reliability", 5); ("completeness", 5); ("temporal correlation", 5); ("geographical correlation", 5)]%string%Z 5%Z).
Qed.
Lemma matrix_of_file_error pyfloat pyint x u pm :
  uncertainty_said pyfloat pyint x u -> u_pedigree u = Some pm -> pm <> [] -> Forall (fun kv => 1 <= kv.2 <= 5)%Z pm ->
  get_pedigree_variance pm = Err (KeyError "further technology correlation").
Proof.
  intros (l & dist & pre & post & _ & _ & _ & _ & _ & _ & _ & _ & _ & _ & _ & _ & _ & _ & _ & _ & ped & Hp & Hs) Hu Hne Hr.
  assert (ped = pm) as -> by congruence.
  assert (exists r c t g f, pm = [("reliability", r); ("completeness", c); ("temporal correlation", t);
                   ("geographical correlation", g); ("further technology correlation", f)]%string) as (r & c & t & g & f & ->).
  { unfold pedigree_said in Hs. destruct (kid "pedigreeMatrix" x).
    - destruct Hs as (r & c & t & g & f & -> & _). by eauto 10.
    - destruct ((l =? "lognormal") || (l =? "normal"))%string; [|done]. subst. by eauto 10. }
  assert (forall label s, (1 <= s <= 5)%Z -> is_Some (pedigree_row label) -> exists q, (let? row := getkey label (pedigree_row label) in py_index row (s - 1)%Z) = Ok q) as Hrow.
  { intros label s Hs1 [row Er]. rewrite Er. cbn. pose proof (row_published "original" pedigree_row label eq_refl) as Hp0. rewrite Er in Hp0. destruct Hp0 as [_ Hl].
    destruct (row !! (Z.to_nat s - 1)%nat) as [q|] eqn:Eq.
    - exists q. apply (counts_as_index s (Z.to_nat s)); [done|left; lia|done].
    - apply lookup_ge_None in Eq. rewrite Hl in Eq. lia. }
  repeat match goal with H : Forall _ (_ :: _) |- _ => apply Forall_cons in H as [? H] end. cbn in *.
  unfold get_pedigree_variance. cbn [mapR fst snd].
  destruct (Hrow "reliability"%string r) as [q1 ->]; [done|eexists; reflexivity|]. cbn [bind].
  destruct (Hrow "completeness"%string c) as [q2 ->]; [done|eexists; reflexivity|]. cbn [bind].
  destruct (Hrow "temporal correlation"%string t) as [q3 ->]; [done|eexists; reflexivity|]. cbn [bind].
  destruct (Hrow "geographical correlation"%string g) as [q4 ->]; [done|eexists; reflexivity|]. cbn [bind].
  assert (pedigree_row "further technology correlation" = None) as -> by (by vm_compute). reflexivity.
Qed.

(** Every lognormal exchange of repaired data has no part of its variance left to the matrix. *)
Lemma repaired_file ln euler pyfloat pyint filepath x d d' : (1 <= euler)%Qc ->
  dataset_said pyfloat pyint filepath x d -> repair_dataset ln euler d = Ok d' ->
  Forall (fun e => match e_unc e with
                   | Some u => u_type u = Some ULognormal -> is_Some (u_variance u) /\ u_variance u = u_vwpu u
                   | None => True end) (d_exchanges d').
Proof.
  intros He Hs H. apply said_no_matrix in Hs. apply repair_dataset_exact in H as (_ & H & _); [|done].
  induction H as [|e e' l l' (Est & Hu & _) _ IH]; [constructor|]. apply Forall_cons in Hs as [Hp Hs]. constructor; [|by apply IH].
  destruct (e_unc e') as [u'|] eqn:Eu; [|done]. intros Ht. rewrite Hp in Hu. destruct (e_unc e) as [u|] eqn:Eu0; [|by cbn in Hu].
  apply (repair_no_matrix ln euler (e_amount e) u (mkUobj (e_amount e) (Some u') None)); [done| |done|done]. apply repair_exact; [done|]. by exists (Some u').
Qed.
