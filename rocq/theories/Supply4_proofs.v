(** Proofs for C79: markets at the end of the models. *)
From stdpp Require Import gmap.
From Verif Require Import Base Strings Types Uncertainty Spec_Uncertainty Uncertainty_proofs Utils Spec_Utils Utils_proofs Grouping GroupUpdate
  Topology Cutoff Locations Consequential Spec_Waste Waste_proofs Spec_Markets Markets_proofs Spec_Mix Mix_proofs
  Spec_Codes Codes_proofs Linked_proofs Spec_Consumers Consumers_proofs ConsumerInputs_proofs SingleOutput_proofs Combined_proofs
  Spec_Untouched Untouched_proofs Pipeline Spec_Pipeline Pipeline_proofs
  Stems_proofs Spec_Balance Balance_proofs Spec_Supply Supply_proofs Supply2_proofs Supply3_proofs.

(** *** A market before the end *)
(** [d] is [a] with the inputs [new]. *)
Definition grown (a d : dataset) (rp : exchange) (new : list exchange) : Prop :=
  frame d = frame a /\ others d = others a /\ filter is_refproduct (d_exchanges a) = [rp] /\
  sublist new (d_exchanges d) /\ within_names (map e_name (d_exchanges a) ++ map e_name new) (d_exchanges d) /\
  forall n, n <> "refinery gas"%string -> demand n (d_exchanges d) = (demand n (d_exchanges a) + demand n new)%Qc.
Lemma filter_sub {A} (P : A -> Prop) `{forall x, Decision (P x)} (l : list A) : sublist (filter P l) l.
Proof. induction l as [|x l IH]; [constructor|]. rewrite filter_cons. destruct (decide (P x)); by constructor. Qed.
Lemma filter_demand n es1 es2 : demand n (es1 ++ es2) = (demand n es1 + demand n es2)%Qc.
Proof. unfold demand. by rewrite filter_app, map_app, Qcsum_app. Qed.
Lemma bare_refproduct es es' rp' : map bare es' = map bare es -> filter is_refproduct es' = [rp'] ->
  exists rp, filter is_refproduct es = [rp] /\ bare rp' = bare rp.
Proof.
  intros HB Hrp. apply bare_kept in HB. apply (filter_Forall2 is_refproduct) in HB.
  2:{ intros e e' E. unfold is_refproduct. apply (f_equal e_type) in E. change (e_type e' = e_type e) in E. by rewrite E. }
  rewrite Hrp in HB. apply Forall2_cons_inv_r in HB as (rp & l & E & HB & El). apply Forall2_nil_inv_r in HB as ->. by exists rp.
Qed.
Lemma market_grown md5 Q kind a m d : (forall s, md5 s <> ""%string) ->
  first kind a m -> d_type a = kind -> good (fun _ => False) (hashed md5) m -> named Q m -> late kind m d ->
  exists rp l new, d_suppliers m = Some l /\ d_code d = d_code m /\ grown a d rp new /\
    Forall2 (share_input (e_amount rp)) (shares l) new /\ Qcsum (map e_amount new) = (provided l * e_amount rp)%Qc /\
    Forall (fun e => Q (e_name rp) (e_name e)) new.
Proof.
  intros Hmd [(F1 & F2 & _) FB] Ht HG HN [(K1 & K2 & _ & K4) HL].
  specialize (FB Ht). assert (d_type m = kind) as Htm by (by rewrite (frame_type a m F1)).
  destruct (HL Htm) as (mid & HM & (S1 & S2 & S3 & S4)). destruct (mixed_shares m mid HM) as (rp' & l & new & Hrp' & Hl & Hmid & HF & Hsum).
  destruct (bare_refproduct _ _ _ FB Hrp') as (rp & Hrp & Hb).
  assert (e_amount rp' = e_amount rp) as Ea by (apply (f_equal e_amount) in Hb; exact Hb).
  assert (e_name rp' = e_name rp) as En by (apply (f_equal e_name) in Hb; exact Hb).
  rewrite Ea in *. exists rp, l, new. split; [done|]. split; [done|].
  assert (Forall Supply2_proofs.linked_input new) as HLI.
  { pose proof HG as (_ & _ & _ & G4). specialize (G4 l Hl). rewrite Forall_forall in G4. apply Forall_forall. intros e He.
    apply elem_of_list_lookup in He as [i Hi]. destruct (Forall2_lookup_r _ _ _ _ _ HF Hi) as (p & Hp & (P1 & _ & _ & P4 & _)).
    apply elem_of_list_lookup_2, shares_elem in Hp. destruct (G4 _ Hp) as (c & Hc & [s Hs]). split; [done|].
    unfold code_truthy. rewrite P4, Hc, Hs. cbn. specialize (Hmd s). destruct (md5 s); done. }
  split.
  - split; [congruence|]. split; [congruence|]. split; [done|]. split; [|split].
    + transitivity (filter Supply2_proofs.linked_input (d_exchanges d)); [|apply filter_sub].
      etransitivity; [|exact S4]. rewrite Hmid, filter_app. rewrite (Combined2_proofs.filter_all _ new HLI). by apply sublist_inserts_l.
    + eapply Forall_impl; [exact S2|]. cbv beta. intros e. rewrite Hmid, map_app. intros He.
      apply elem_of_app in He as [He|He]; apply elem_of_app; [left|by right].
      apply (f_equal (map e_name)) in FB. rewrite !map_map in FB. change (map e_name (d_exchanges m) = map e_name (d_exchanges a)) in FB. by rewrite <- FB.
    + intros n Hn. rewrite S3, Hmid, filter_demand by done. f_equal. by apply bare_demand.
  - split; [done|]. split; [done|]. destruct (HN l Hl) as (r & Hr & HQ). pose proof HG as (_ & G2 & _).
    assert (r = e_name rp) as ->.
    { assert (rp' ∈ filter is_refproduct (d_exchanges m)) as Hin by (rewrite Hrp'; by left). apply elem_of_list_filter in Hin as [Hi Hin].
      rewrite Forall_forall in G2. specialize (G2 rp' Hin Hi). rewrite <- En. congruence. }
    rewrite Forall_forall in HQ. apply Forall_forall. intros e He.
    apply elem_of_list_lookup in He as [i Hi]. destruct (Forall2_lookup_r _ _ _ _ _ HF Hi) as (p & Hp & (_ & P2 & _)).
    apply elem_of_list_lookup_2, shares_elem in Hp. rewrite P2. by apply HQ.
Qed.

(** *** Amounts by name *)
Definition signed (c : string -> Qc) (e e' : exchange) : Prop :=
  e_type e' = e_type e /\ e_name e' = e_name e /\ e_code e' = e_code e /\ e_amount e' = (e_amount e * c (e_name e))%Qc.
Lemma signed_net c n es es' d : Forall2 (signed c) es es' ->
  net n (set_d_exchanges es' d) = (net n (set_d_exchanges es d) * c n)%Qc.
Proof.
  intros HF. unfold net. cbn [d_exchanges set_d_exchanges].
  assert (forall P : exchange -> Prop, forall HD : (forall e, Decision (P e)),
    (forall e e', e_type e' = e_type e -> e_name e' = e_name e -> P e' <-> P e) -> (forall e, P e -> e_name e = n) ->
    Qcsum (map e_amount (filter P es')) = (Qcsum (map e_amount (filter P es)) * c n)%Qc) as H.
  { intros P HD HP HN. induction HF as [|e e' es es' (Ht & Hn & _ & Ha) _ IH]; [rewrite !filter_nil; cbn; ring|].
    pose proof (HP e e' Ht Hn) as Hp. rewrite !filter_cons. destruct (decide (P e)) as [D|D], (decide (P e')) as [D'|D'];
      try (exfalso; tauto); [|exact IH].
    cbn [map]. unfold Qcsum in *. cbn [foldr]. rewrite IH, Ha, (HN e D). ring. }
  rewrite !H; [ring|..].
  - intros e e' -> ->. done.
  - by intros e [_ ?].
  - intros e e' Ht Hn. unfold is_output. by rewrite Ht, Hn.
  - by intros e [_ ?].
Qed.
Lemma scaled_signed k e e' : scaled_by k e e' -> signed (fun _ => k) e e'.
Proof. intros [Ha Hs]. apply sameb_fields in Hs as (? & ? & _ & _ & _ & _ & ? & _). done. Qed.
Lemma signed_compose c1 c2 e e1 e2 : signed c1 e e1 -> signed c2 e1 e2 -> signed (fun n => (c1 n * c2 n)%Qc) e e2.
Proof.
  intros (A1 & A2 & A3 & A4) (B1 & B2 & B3 & B4). split; [congruence|]. split; [congruence|]. split; [congruence|].
  rewrite B4, A4, A2. ring.
Qed.
Lemma negated_signed (P : string -> Prop) `{forall n, Decision (P n)} e e' : negated_where (fun e => P (e_name e)) e e' ->
  signed (fun n => if decide (P n) then (- (1))%Qc else 1%Qc) e e'.
Proof.
  intros [[Hp Hs]|[Hp ->]].
  - apply scaled_signed in Hs as (? & ? & ? & Ha). repeat (split; [done|]). by rewrite decide_True.
  - repeat (split; [done|]). rewrite decide_False by done. ring.
Qed.
Lemma signed_id es : Forall2 (signed (fun _ => 1%Qc)) es es.
Proof. induction es; constructor; [|done]. repeat (split; [done|]). ring. Qed.
(** One factor for the product [p], and one for everything else. *)
Definition either (p : string) (f g : Qc) (n : string) : Qc := if decide (n = p) then f else g.
Lemma signed_ext c c' es es' : (forall n, c n = c' n) -> Forall2 (signed c) es es' -> Forall2 (signed c') es es'.
Proof. intros E H. eapply Forall2_impl; [exact H|]. intros e e' (? & ? & ? & ?). repeat (split; [done|]). by rewrite <- E. Qed.
Lemma adjusted_signed ds ds' rp : filter is_refproduct (d_exchanges ds) = [rp] -> signs_adjusted ds ds' ->
  exists es x y, ds' = set_d_exchanges es ds /\ (x = 1 \/ x = - (1))%Qc /\ (y = 1 \/ y = - (1))%Qc /\
    (d_type ds <> MarketActivity -> x = 1%Qc /\ y = 1%Qc) /\ Forall2 (signed (either (e_name rp) x y)) (d_exchanges ds) es.
Proof.
  intros Hrp H.
  assert (exists es x y, ds = set_d_exchanges es ds /\ (x = 1 \/ x = - (1))%Qc /\ (y = 1 \/ y = - (1))%Qc /\
    (d_type ds <> MarketActivity -> x = 1%Qc /\ y = 1%Qc) /\ Forall2 (signed (either (e_name rp) x y)) (d_exchanges ds) es) as Hsame.
  { exists (d_exchanges ds), 1%Qc, 1%Qc. split; [by destruct ds|]. split; [by left|]. split; [by left|]. split; [done|].
    eapply signed_ext; [|apply signed_id]. intros n. unfold either. by destruct (decide _). }
  destruct H as [[_ ->]|[(? & _ & _ & _ & ->)|(rp2 & es & (Hm & Hrp2 & _) & -> & H)]]; [done|done|].
  rewrite Hrp in Hrp2. apply both_parts in Hrp2 as [<- _]. destruct H as [[_ H]|[(_ & _ & H)|(_ & _ & ->)]].
  - exists es, (- (1))%Qc, (- (1))%Qc. split; [done|]. split; [by right|]. split; [by right|]. split; [done|].
    eapply (signed_ext (fun n => if decide True then (- (1))%Qc else 1%Qc)).
    + intros n. unfold either. destruct (decide True); [|done]. by destruct (decide _).
    + eapply Forall2_impl; [exact H|]. intros e e' He. by apply (negated_signed (fun _ => True)).
  - exists es, (- (1))%Qc, 1%Qc. split; [done|]. split; [by right|]. split; [by left|]. split; [done|].
    eapply Forall2_impl; [exact H|]. intros e e' He. by apply (negated_signed (fun n => n = e_name rp)).
  - assert (set_d_exchanges (d_exchanges ds) ds = ds) as -> by (by destruct ds). done.
Qed.

(** *** The end of the models *)
Lemma steps_signed w d ds rp : filter is_refproduct (d_exchanges d) = [rp] -> strip_marker (e_name rp) = e_name rp -> steps_of w d ds ->
  exists k f g es1 es, normalising_factor (e_amount rp) k /\ (f = k \/ f = - k)%Qc /\ (g = k \/ g = - k)%Qc /\
    (d_type d <> MarketActivity -> f = k /\ g = k) /\
    flip_non_allocatable_byproducts (renamed d) = Ok (set_d_exchanges es1 (renamed d)) /\ ds = set_d_exchanges es (renamed d) /\
    Forall2 flipped (d_exchanges (renamed d)) es1 /\ Forall2 (signed (either (e_name rp) f g)) es1 es.
Proof.
  intros Hrp Hst (d1 & d2 & H1 & H2 & H3). pose proof H1 as H1'. apply flip_spec in H1 as (es1 & -> & H1).
  apply normalize_spec in H2 as (rp1 & k & es2 & Hrp1 & _ & Hk & -> & HS & _).
  cbn [d_exchanges set_d_exchanges] in Hrp1, HS.
  assert (e_amount rp1 = e_amount rp /\ e_name rp1 = e_name rp) as [Ea En].
  { pose proof H1 as HF. apply (filter_Forall2 is_refproduct) in HF.
    2:{ intros e e' He. symmetry. apply (flipped_type (fun t => t = RefProduct)) in He; done. }
    rewrite Hrp1 in HF. apply Forall2_cons_inv_r in HF as (x & l & E & HF & El). apply Forall2_nil_inv_r in HF as ->.
    assert (filter is_refproduct (d_exchanges (renamed d)) = [set_e_name (strip_marker (e_name rp)) rp]) as El'.
    { cbn [d_exchanges renamed set_d_refprod set_d_exchanges]. clear -Hrp.
      assert (forall es, filter is_refproduct (map (fun e => set_e_name (strip_marker (e_name e)) e) es) =
                         map (fun e => set_e_name (strip_marker (e_name e)) e) (filter is_refproduct es)) as ->; [|by rewrite Hrp].
      induction es as [|e es IH]; [done|]. cbn [map]. rewrite !filter_cons.
      destruct (decide (is_refproduct e)) as [D|D].
      - rewrite decide_True by done. cbn [map]. by rewrite IH.
      - rewrite decide_False by done. done. }
    rewrite El' in El. apply both_parts in El as [<- _].
    assert (is_refproduct rp) as Ht.
    { assert (rp ∈ filter is_refproduct (d_exchanges d)) as Hin by (rewrite Hrp; by left). by apply elem_of_list_filter in Hin as [? _]. }
    destruct E as [[[Hb _] _]|[_ ->]]; [cbn in Hb; unfold is_refproduct in Ht; congruence|]. done. }
  assert (Forall2 (signed (fun _ => k)) es1 es2) as HS1 by (eapply Forall2_impl; [exact HS|]; intros; by apply scaled_signed).
  assert (exists rp2, filter is_refproduct es2 = [rp2] /\ e_name rp2 = e_name rp) as (rp2 & Hrp2 & En2).
  { pose proof HS1 as HF. apply (filter_Forall2 is_refproduct) in HF.
    2:{ intros e e' (He & _). unfold is_refproduct. by rewrite He. }
    rewrite Hrp1 in HF. apply Forall2_cons_inv_l in HF as (x & l & (_ & E & _) & HF & El). apply Forall2_nil_inv_l in HF as ->.
    exists x. split; [done|]. congruence. }
  apply adjust_spec in H3. eapply adjusted_signed in H3 as (es & x & y & -> & Hx & Hy & Hxy & HS2); [|exact Hrp2].
  cbn [d_exchanges set_d_exchanges] in HS2. rewrite En2 in HS2.
  exists k, (k * x)%Qc, (k * y)%Qc, es1, es. split; [by rewrite <- Ea|].
  split; [destruct Hx as [->| ->]; [left|right]; ring|]. split; [destruct Hy as [->| ->]; [left|right]; ring|].
  split; [intros Ht; destruct (Hxy Ht) as [-> ->]; split; ring|]. split; [done|]. split; [done|]. split; [exact H1|].
  eapply (signed_ext (fun n => (k * either (e_name rp) x y n)%Qc)).
  { intros n. unfold either. by destruct (decide _). }
  clear -HS1 HS2. revert es HS2. induction HS1 as [|e e1 es1 es2 H _ IH]; intros es HS2.
  - apply Forall2_nil_inv_l in HS2 as ->. constructor.
  - apply Forall2_cons_inv_l in HS2 as (e2 & l & H2 & HS2 & ->). constructor; [|by apply IH].
    by apply (signed_compose (fun _ => k) (either (e_name rp) x y) e e1 e2).
Qed.
Lemma sublist_along {A B} (R : A -> B -> Prop) new es es' : sublist new es -> Forall2 R es es' ->
  exists new', sublist new' es' /\ Forall2 R new new'.
Proof.
  intros H. revert es'. induction H as [|x l k _ IH|x l k _ IH]; intros es' HF.
  - exists []. apply Forall2_nil_inv_l in HF as ->. by split; constructor.
  - apply Forall2_cons_inv_l in HF as (y & l' & Hy & HF & ->). destruct (IH _ HF) as (new' & S & F). exists (y :: new').
    split; by constructor.
  - apply Forall2_cons_inv_l in HF as (y & l' & Hy & HF & ->). destruct (IH _ HF) as (new' & S & F). exists new'.
    split; [by constructor|done].
Qed.

(** *** Demands of the inputs *)
Lemma demand_all p new : Forall (fun e => e_type e = FromTechnosphere /\ called p e) new ->
  (demand p new + demand (p ++ marker)%string new)%Qc = Qcsum (map e_amount new).
Proof.
  induction 1 as [|e new [Ht He] _ IH]; [done|]. pose proof (marker_apart p) as Hm. unfold demand in *. rewrite !filter_cons.
  destruct He as [He|He].
  - rewrite decide_True by done. rewrite decide_False by (intros [_ E]; congruence). cbn [map]. unfold Qcsum in *. cbn [foldr].
    rewrite <- IH. ring.
  - rewrite decide_False by (intros [_ E]; congruence). rewrite decide_True by done. cbn [map]. unfold Qcsum in *. cbn [foldr].
    rewrite <- IH. ring.
Qed.
Lemma demand_none n new : Forall (fun e => e_name e <> n) new -> demand n new = 0%Qc.
Proof.
  intros H. unfold demand. rewrite Cutoff_proofs.filter_none; [done|]. eapply Forall_impl; [exact H|]. cbn. intros e He [_ E]. done.
Qed.
Lemma app_marker a b : (a ++ marker)%string = (b ++ marker)%string -> a = b.
Proof.
  revert b. induction a as [|c a IH]; intros [|c' b] E; [done|..].
  - apply (f_equal String.length) in E. rewrite !str_app_length in E. cbn [String.length] in E. lia.
  - apply (f_equal String.length) in E. rewrite !str_app_length in E. cbn [String.length] in E. lia.
  - cbn [String.append] in E. injection E as -> E. f_equal. by apply IH.
Qed.
Lemma occurs_end a : occurs_in marker (a ++ marker)%string.
Proof. exists a, ""%string. done. Qed.

(** *** One market *)
Lemma grown_refproduct a d rp new : grown a d rp new ->
  exists rp', filter is_refproduct (d_exchanges d) = [rp'] /\ e_amount rp' = e_amount rp /\ e_name rp' = e_name rp.
Proof.
  intros (_ & HO & Hrp & _).
  assert (map bare (filter is_refproduct (d_exchanges d)) = map bare (filter is_refproduct (d_exchanges a))) as HB.
  { apply others_filter; [done| |done]. intros e Ht. unfold is_refproduct in Ht. by rewrite Ht. }
  rewrite Hrp in HB. apply bare_kept in HB. apply Forall2_cons_inv_l in HB as (rp' & l & E & HB & El). apply Forall2_nil_inv_l in HB as ->.
  exists rp'. split; [done|]. split; [by apply (f_equal e_amount) in E|by apply (f_equal e_name) in E].
Qed.
Lemma grown_once a d rp new : grown a d rp new -> ~ occurs_in marker (e_name rp) -> Forall (called (e_name rp)) new ->
  marked_once a -> marked_once d.
Proof.
  intros (_ & _ & _ & _ & HN & _) Hp HC HM. unfold marked_once, within_names in *. rewrite Forall_forall in *. intros e He x E.
  specialize (HN e He). apply elem_of_app in HN as [HN|HN]; apply elem_of_list_fmap_2 in HN as (e0 & E0 & He0).
  - eapply (HM e0 He0). congruence.
  - destruct (HC e0 He0) as [C|C].
    + exfalso. apply Hp. rewrite <- C, <- E0, E. apply occurs_end.
    + rewrite <- E0, E in C. apply app_marker in C as ->. done.
Qed.
Lemma grown_net a d rp new n : grown a d rp new -> n <> "refinery gas"%string ->
  net n d = (net n a - demand n new)%Qc.
Proof. intros (_ & HO & _ & _ & _ & HD) Hn. rewrite !net_parts, HD, (others_outs n a d HO) by done. ring. Qed.
Lemma grown_called a d rp new n : grown a d rp new -> n <> "refinery gas"%string ->
  net_called n d = (net_called n a - (demand n new + demand (n ++ marker)%string new))%Qc.
Proof.
  intros (_ & HO & _ & _ & _ & HD) Hn. rewrite !called_parts, !HD, !(others_outs _ a d HO) by (done || apply marked_not_gas). ring.
Qed.
Lemma share_types amount l new : Forall2 (share_input amount) l new -> Forall (fun e => e_type e = FromTechnosphere) new.
Proof. induction 1 as [|p e l new (H & _) _ IH]; by constructor. Qed.
Lemma both_Forall (P R : exchange -> Prop) l : Forall P l -> Forall R l -> Forall (fun e => P e /\ R e) l.
Proof. rewrite !Forall_forall. naive_solver. Qed.
Lemma cutoff_supplied w a d ds rp new l : grown a d rp new -> ~ occurs_in marker (e_name rp) -> marked_once a ->
  Forall2 (share_input (e_amount rp)) (shares l) new -> Qcsum (map e_amount new) = (provided l * e_amount rp)%Qc ->
  Forall (fun e => marked_or_not (e_name rp) (e_name e)) new -> steps_of w d ds ->
  frame ds = frame a /\ d_code ds = d_code d /\ supplied_market net_called l a ds.
Proof.
  intros HG Hp HM HF Hsum HC HS. destruct (grown_refproduct _ _ _ _ HG) as (rp' & Hrp' & Ea & En).
  pose proof (share_types _ _ _ HF) as Hty.
  assert (Forall (called (e_name rp)) new) as HC' by exact HC.
  eapply steps_signed in HS as (k & f & g & es1 & es & Hk & Hf & Hg & Hfg & Hflip & -> & HFl & HSg); [|exact Hrp'|by rewrite En; apply strip_free].
  rewrite Ea in Hk. rewrite En in HSg. pose proof HG as (HFr & HO & Hrp & Hsub & Hnames & Hdem).
  split; [exact HFr|]. split; [done|].
  assert (forall n, ~ occurs_in marker n -> n <> "refinery gas"%string ->
    net n (set_d_exchanges es (renamed d)) =
    ((net_called n a - (demand n new + demand (n ++ marker)%string new)) * either (e_name rp) f g n)%Qc) as Hnet.
  { intros n Hn Hgas. rewrite (signed_net _ n es1 es (renamed d) HSg). f_equal. rewrite (flip_net _ _ n Hflip).
    rewrite renamed_net; [|done|by eapply grown_once]. by eapply grown_called. }
  destruct (sublist_along flipped (map (fun e => set_e_name (strip_marker (e_name e)) e) new) (d_exchanges (renamed d)) es1) as (new1 & Hs1 & Hn1).
  { cbn [d_exchanges renamed set_d_refprod set_d_exchanges]. by apply sublist_fmap. }
  { exact HFl. }
  assert (new1 = map (fun e => set_e_name (strip_marker (e_name e)) e) new) as ->.
  { clear -Hn1 Hty. revert new1 Hn1. induction Hty as [|e new He _ IH]; intros new1 Hn1; cbn [map] in Hn1 |- *.
    - by apply Forall2_nil_inv_l in Hn1 as ->.
    - apply Forall2_cons_inv_l in Hn1 as (e1 & r & E & Hn1 & ->). rewrite (IH _ Hn1). f_equal.
      destruct E as [[[Hb _] _]|[_ ->]]; [|done]. cbn in Hb. congruence. }
  destruct (sublist_along _ _ _ _ Hs1 HSg) as (mix & Hs2 & Hmix).
  exists rp, k, f, g, mix. split; [done|]. split; [done|]. split; [done|]. split; [done|].
  split. { intros Ht. apply Hfg. rewrite (frame_type a d HFr), Ht. done. }
  split; [exact Hs2|]. split.
  - apply Forall2_fmap_l in Hmix. clear -HF Hmix HC' Hp. revert mix Hmix. induction HF as [|p e sh new H _ IH]; intros mix Hmix.
    + apply Forall2_nil_inv_l in Hmix as ->. constructor.
    + apply Forall2_cons_inv_l in Hmix as (e' & r & (M1 & M2 & M3 & M4) & Hmix & ->). apply Forall_cons in HC' as [Hc HC'].
      constructor; [|by apply IH]. destruct H as (S1 & S2 & S3 & S4 & S5). cbn in M1, M2, M3, M4.
      assert (strip_marker (e_name e) = e_name rp) as Hst.
      { destruct Hc as [->| ->]; [by apply strip_free|by apply strip_marked]. }
      rewrite Hst in *. unfold either in M4. rewrite decide_True in M4 by done. rewrite M1, M2, M3, M4, S1, S4, S5. rewrite S4 in S3. done.
  - split.
    + intros Hgas. rewrite Hnet by done. rewrite demand_all by (by apply both_Forall). unfold either. rewrite decide_True by done. by rewrite Hsum.
    + intros n Hn Hgas Hne. rewrite Hnet by done. unfold either. rewrite decide_False by done. rewrite !demand_none; [ring|..].
      * eapply Forall_impl; [exact HC'|]. cbv beta. intros e [E|E] E'; rewrite E in E'.
        { apply Hp. rewrite E'. apply occurs_end. }
        { by apply app_marker in E'. }
      * eapply Forall_impl; [exact HC'|]. cbv beta. intros e [E|E] E'; rewrite E in E'; [done|]. apply Hn. rewrite <- E'. apply occurs_end.
Qed.
Lemma consequential_supplied ln a d ds rp new l : grown a d rp new ->
  Forall2 (share_input (e_amount rp)) (shares l) new -> Qcsum (map e_amount new) = (provided l * e_amount rp)%Qc ->
  Forall (fun e => e_name e = e_name rp) new -> normalize_reference_production_amount ln d = Ok ds ->
  frame ds = frame a /\ d_code ds = d_code d /\ supplied_market net l a ds.
Proof.
  intros HG HF Hsum HC HS. destruct (grown_refproduct _ _ _ _ HG) as (rp' & Hrp' & Ea & En).
  pose proof (share_types _ _ _ HF) as Hty. pose proof HG as (HFr & HO & Hrp & Hsub & Hnames & Hdem).
  apply normalize_spec in HS as (rp2 & k & es & Hrp2 & _ & Hk & -> & HS & _).
  rewrite Hrp' in Hrp2. apply both_parts in Hrp2 as [<- _]. rewrite Ea in Hk.
  assert (Forall2 (signed (fun _ => k)) (d_exchanges d) es) as HSg by (eapply Forall2_impl; [exact HS|]; intros; by apply scaled_signed).
  split; [exact HFr|]. split; [done|].
  assert (forall n, n <> "refinery gas"%string -> net n (set_d_exchanges es d) = ((net n a - demand n new) * k)%Qc) as Hnet.
  { intros n Hgas. rewrite (signed_net _ n _ es d HSg).
    assert (set_d_exchanges (d_exchanges d) d = d) as -> by (by destruct d). by rewrite (grown_net _ _ _ _ _ HG Hgas). }
  destruct (sublist_along _ _ _ _ Hsub HSg) as (mix & Hs2 & Hmix).
  exists rp, k, k, k, mix. split; [done|]. split; [done|]. split; [by left|]. split; [by left|]. split; [done|]. split; [exact Hs2|]. split.
  - clear -HF Hmix HC. revert mix Hmix. induction HF as [|p e sh new H _ IH]; intros mix Hmix.
    + apply Forall2_nil_inv_l in Hmix as ->. constructor.
    + apply Forall2_cons_inv_l in Hmix as (e' & r & (M1 & M2 & M3 & M4) & Hmix & ->). apply Forall_cons in HC as [Hc HC].
      constructor; [|by apply IH]. destruct H as (S1 & S2 & S3 & S4 & S5).
      rewrite M1, M2, M3, M4, Hc, S1, S4, S5. rewrite S4 in S3. done.
  - split.
    + intros Hgas. rewrite Hnet by done. f_equal. f_equal. rewrite <- Hsum. unfold demand.
      by rewrite (Combined2_proofs.filter_all _ new) by (by apply both_Forall).
    + intros n Hn Hgas Hne. rewrite Hnet by done. rewrite demand_none; [ring|].
      eapply Forall_impl; [exact HC|]. cbv beta. intros e E E'. congruence.
Qed.

(** *** The models *)
Lemma plain_rp a rp : plain_market a -> d_type a = MarketActivity \/ d_type a = MarketGroup -> filter is_refproduct (d_exchanges a) = [rp] ->
  ~ occurs_in marker (e_name rp).
Proof.
  intros H Ht Hrp. specialize (H Ht). rewrite Forall_forall in H.
  assert (rp ∈ filter is_refproduct (d_exchanges a)) as Hin by (rewrite Hrp; by left). apply elem_of_list_filter in Hin as [Hi Hin].
  by apply H.
Qed.
Lemma uncoded_weaken data : uncoded (fun _ => True) data -> uncoded' data.
Proof. intros H. eapply Forall_impl; [exact H|]. intros d [H1 _]. split; [done|]. apply Forall_forall. done. Qed.
Lemma cutoff_raw w data prepared allocated : raw data -> cutoff_prepared w data = Ok prepared ->
  cutoff_allocated w prepared = Ok allocated -> uncoded' allocated.
Proof.
  intros Hr H1 H2. apply uncoded_weaken. eapply raw_from; [exact Hr|].
  eapply all_from_trans; [by eapply cutoff_prepared_from|by eapply cutoff_allocated_from].
Qed.
Section end_of_cutoff.
Context (w : world) (Hmd : forall s, w_md5 w s <> ""%string).
Lemma cutoff_each kind base ready linked out : kind = MarketActivity \/ kind = MarketGroup ->
  Forall2 (first kind) base ready -> sound marked_or_not (hashed (w_md5 w)) ready -> Forall2 (late kind) ready linked ->
  Forall2 (steps_of w) linked out -> Forall marked_once base -> Forall plain_market base ->
  Forall3 (was_supplied net_called kind) base ready out.
Proof.
  intros Hk HB [HG HN] HL HS HM HP. revert linked out HL HS. induction HB as [|a m base ready H1 _ IH]; intros linked out HL HS.
  - apply Forall2_nil_inv_l in HL as ->. apply Forall2_nil_inv_l in HS as ->. constructor.
  - apply Forall2_cons_inv_l in HL as (d & linked' & H2 & HL & ->). apply Forall2_cons_inv_l in HS as (ds & out' & H3 & HS & ->).
    apply Forall_cons in HG as [HG1 HG], HN as [HN1 HN], HM as [HM1 HM], HP as [HP1 HP].
    constructor; [|by eapply IH]. intros Ht.
    assert (frame ds = frame d) as Hf.
    { destruct H3 as (d1 & d2 & F1 & F2 & F3). apply flip_spec in F1 as (es1 & -> & _).
      apply normalize_same in F2 as (es2 & -> & _). apply adjust_same in F3 as (es3 & -> & _). done. }
    assert (d_type a = kind) as Hta.
    { destruct H1 as [(F1 & _) _]. destruct H2 as [(K1 & _) _]. rewrite <- Ht. symmetry. apply frame_type. congruence. }
    destruct (market_grown _ _ _ _ _ _ Hmd H1 Hta HG1 HN1 H2) as (rp & l & new & Hl & Hc & Hgr & Hsh & Hsum & HQ).
    eapply cutoff_supplied in H3 as (R1 & R2 & R3); [|exact Hgr| |exact HM1|exact Hsh|exact Hsum|exact HQ].
    + split; [done|]. split; [congruence|]. by exists l.
    + eapply plain_rp; [exact HP1|by rewrite Hta|by apply Hgr].
Qed.
Lemma cutoff_markets data out prepared allocated : raw data ->
  cutoff_prepared w data = Ok prepared -> cutoff_allocated w prepared = Ok allocated ->
  Forall marked_once allocated -> Forall plain_market allocated -> cutoff_model w data = Ok out ->
  exists base ready, sublist base allocated /\ filter local base = filter local allocated /\
    markets_ready (w_md5 w) (w_ord w) (w_topo w) allocated = Ok ready /\
    Forall3 (was_supplied net_called MarketActivity) base ready out.
Proof.
  intros Hr Hp Ha HM HPl H. pose proof (cutoff_raw _ _ _ _ Hr Hp Ha) as HU.
  apply cutoff_model_parts in H as (p & a & linked & Hp' & Ha' & HL & HF).
  rewrite Hp in Hp'. apply Ok_inj in Hp' as <-. rewrite Ha in Ha'. apply Ok_inj in Ha' as <-.
  destruct (pv_parts _ Hmd _ _ _ _ _ HU HL) as (mk & gr & Emk & _ & Hlate & _).
  destruct (markets_ready_inv _ _ _ _ _ HU Emk MarketActivity) as ((base & HS & HB & Hloc) & _ & Hsound).
  exists base, mk. split; [done|]. split; [done|]. split; [done|].
  eapply cutoff_each; [by (left + right)|exact HB|exact Hsound|exact Hlate|exact HF|by eapply Forall_sublist|by eapply Forall_sublist].
Qed.
Lemma cutoff_groups data out prepared allocated : raw data ->
  cutoff_prepared w data = Ok prepared -> cutoff_allocated w prepared = Ok allocated ->
  Forall marked_once allocated -> Forall plain_market allocated -> cutoff_model w data = Ok out ->
  exists base ready, sublist base allocated /\ filter local base = filter local allocated /\
    groups_ready (w_md5 w) (w_ord w) (w_topo w) allocated = Ok ready /\
    Forall3 (was_supplied net_called MarketGroup) base ready out.
Proof.
  intros Hr Hp Ha HM HPl H. pose proof (cutoff_raw _ _ _ _ Hr Hp Ha) as HU.
  apply cutoff_model_parts in H as (p & a & linked & Hp' & Ha' & HL & HF).
  rewrite Hp in Hp'. apply Ok_inj in Hp' as <-. rewrite Ha in Ha'. apply Ok_inj in Ha' as <-.
  destruct (pv_parts _ Hmd _ _ _ _ _ HU HL) as (mk & gr & _ & Egr & _ & Hlate).
  destruct (groups_ready_inv _ _ _ _ _ HU Egr) as ((base & HS & HB & Hloc) & _ & Hsound).
  exists base, gr. split; [done|]. split; [done|]. split; [done|].
  eapply cutoff_each; [by (left + right)|exact HB|exact Hsound|exact Hlate|exact HF|by eapply Forall_sublist|by eapply Forall_sublist].
Qed.
Lemma consequential_markets data out prepared : raw data ->
  consequential_prepared w data = Ok prepared -> consequential_model w data = Ok out ->
  exists base ready, sublist base prepared /\ filter local base = filter local prepared /\
    levels_ready (w_md5 w) (w_ord w) (w_topo w) prepared = Ok ready /\
    Forall3 (was_supplied net MarketActivity) base ready out.
Proof.
  intros Hr Hp H.
  assert (uncoded' prepared) as HU by (eapply uncoded_weaken, raw_from; [exact Hr|by eapply consequential_prepared_from]).
  apply consequential_parts in H as (p & linked & Hp' & HL & HF). rewrite Hp in Hp'. apply Ok_inj in Hp' as <-.
  destruct (tech_parts _ Hmd _ _ _ _ _ HU HL) as (mk & Emk & Hlate & _).
  destruct (levels_ready_inv _ _ _ _ _ HU Emk MarketActivity) as ((base & HS & HB & Hloc) & _ & [HG HN]).
  exists base, mk. split; [done|]. split; [done|]. split; [done|]. clear -Hmd HB HG HN Hlate HF.
  revert linked out Hlate HF. induction HB as [|a m base mk H1 _ IH]; intros linked out HL HS.
  - apply Forall2_nil_inv_l in HL as ->. apply Forall2_nil_inv_l in HS as ->. constructor.
  - apply Forall2_cons_inv_l in HL as (d & linked' & H2 & HL & ->). apply Forall2_cons_inv_l in HS as (ds & out' & H3 & HS & ->).
    apply Forall_cons in HG as [HG1 HG], HN as [HN1 HN]. constructor; [|by eapply IH]. intros Ht.
    assert (frame ds = frame d) as Hf by (by apply normalize_same in H3 as (es2 & -> & _)).
    assert (d_type a = MarketActivity) as Hta.
    { destruct H1 as [(F1 & _) _]. destruct H2 as [(K1 & _) _]. rewrite <- Ht. symmetry. apply frame_type. congruence. }
    destruct (market_grown _ _ _ _ _ _ Hmd H1 Hta HG1 HN1 H2) as (rp & l & new & Hl & Hc & Hgr & Hsh & Hsum & HQ).
    eapply consequential_supplied in H3 as (R1 & R2 & R3); [|exact Hgr|exact Hsh|exact Hsum|exact HQ].
    split; [done|]. split; [congruence|]. by exists l.
Qed.
(** Market groups of the consequential model are given nothing. *)
Lemma consequential_groups data out prepared : raw data ->
  consequential_prepared w data = Ok prepared -> consequential_model w data = Ok out ->
  exists base, sublist base prepared /\ filter local base = filter local prepared /\
    Forall2 (fun a ds => d_type ds = MarketGroup -> frame ds = frame a /\
      exists rp k, filter is_refproduct (d_exchanges a) = [rp] /\ normalising_factor (e_amount rp) k /\
        forall n, n <> "refinery gas"%string -> net n ds = (net n a * k)%Qc) base out.
Proof.
  intros Hr Hp H.
  assert (uncoded' prepared) as HU by (eapply uncoded_weaken, raw_from; [exact Hr|by eapply consequential_prepared_from]).
  apply consequential_parts in H as (p & linked & Hp' & HL & HF). rewrite Hp in Hp'. apply Ok_inj in Hp' as <-.
  destruct (tech_parts _ Hmd _ _ _ _ _ HU HL) as (mk & Emk & _ & Hlate).
  destruct (levels_ready_inv _ _ _ _ _ HU Emk MarketGroup) as ((base & HS & HB & Hloc) & _ & _).
  exists base. split; [done|]. split; [done|]. clear -Hmd HB Hlate HF.
  revert linked out Hlate HF. induction HB as [|a m base mk H1 _ IH]; intros linked out HL HS.
  - apply Forall2_nil_inv_l in HL as ->. apply Forall2_nil_inv_l in HS as ->. constructor.
  - apply Forall2_cons_inv_l in HL as (d & linked' & H2 & HL & ->). apply Forall2_cons_inv_l in HS as (ds & out' & H3 & HS & ->).
    constructor; [|by eapply IH]. intros Ht.
    destruct H1 as [(F1 & F2 & _) FB]. destruct H2 as [(K1 & K2 & _) Hset].
    apply normalize_spec in H3 as (rp' & k & es & Hrp' & _ & Hk & -> & HSc & _).
    assert (frame d = frame a) as Hf by congruence.
    assert (d_type a = MarketGroup) as Hta by (by rewrite <- (frame_type a d Hf)).
    assert (d_type m = MarketGroup) as Htm by (by rewrite (frame_type a m F1)).
    destruct (Hset Htm) as (_ & _ & S3 & _). specialize (FB Hta).
    split; [exact Hf|]. assert (others d = others a) as HO by congruence.
    assert (map bare (filter is_refproduct (d_exchanges d)) = map bare (filter is_refproduct (d_exchanges a))) as HBr.
    { apply others_filter; [done| |done]. intros e Hx. unfold is_refproduct in Hx. by rewrite Hx. }
    rewrite Hrp' in HBr. apply bare_kept in HBr. apply Forall2_cons_inv_r in HBr as (rp & l' & Eb & HBr & Er). apply Forall2_nil_inv_r in HBr as ->.
    apply (f_equal e_amount) in Eb. change (e_amount rp' = e_amount rp) in Eb.
    exists rp, k. split; [done|]. split; [by rewrite <- Eb|]. intros n Hn.
    rewrite (scaled_net k n _ es d HSc). f_equal. assert (set_d_exchanges (d_exchanges d) d = d) as -> by (by destruct d).
    rewrite !net_parts, S3, (others_outs n a d HO) by done. by rewrite (bare_demand n _ _ FB).
Qed.
End end_of_cutoff.
