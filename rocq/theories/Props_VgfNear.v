(** Property C47 continued: the points read back are those written, to half a hundredth. *)
From Coq Require Import QArith Qabs Lia.
From Verif Require Import Base BaseFacts Floats Strings Structs VgfBase VgfRead Vgf SpecVgf SpecVgfTrip SpecVgfNear Order NearFacts.
From Verif Require Props_Vgf Props_VgfTrip.
From Coq Require Import List.
Import ListNotations.
Open Scope string_scope.
Open Scope list_scope.
Open Scope Z_scope.

Lemma near_map l : Forall degrees l -> Forall2 hundredth_near l (map (fun x => around2 (np32 x)) l).
Proof. induction 1 as [|x l [F H] _ IH]; cbn [map]; constructor; [exact (around2_near x F H)|exact IH]. Qed.

Lemma near_rev a b : Forall2 hundredth_near a b -> Forall2 hundredth_near (rev a) (rev b).
Proof. induction 1; cbn [rev]; [constructor|]. apply Forall2_app; [assumption|constructor; [assumption|constructor]]. Qed.

Lemma path_read o l : has_path o -> Forall degrees l ->
  exists r, points_read o l = CoArr r /\ Forall2 hundredth_near (path o l) r.
Proof.
  intros K D. pose proof (near_map l D) as N.
  assert (C : Forall2 hundredth_near
     (match o_get o "closed", l with VInt 0, _ => l | _, a :: _ :: _ :: _ => l ++ [a] | _, _ => l end)
     (match o_get o "closed" with VInt 0 => map (fun x => around2 (np32 x)) l | _ => closing (map (fun x => around2 (np32 x)) l) end)).
  { assert (X : Forall2 hundredth_near (match l with a :: _ :: _ :: _ => l ++ [a] | _ => l end) (closing (map (fun x => around2 (np32 x)) l))).
    { destruct l as [|a [|b [|c l]]]; try exact N. cbn [map closing] in *. apply Forall2_app; [exact N|]. inversion N; subst. constructor; [assumption|constructor]. }
    destruct (o_get o "closed") as [z|f|s|s|]; try exact X. destruct z; [exact N|exact X|exact X]. }
  unfold points_read, path. destruct K as [->|[->| ->]]; [eauto| |eauto].
  destruct (o_get o "direction") as [z|f|s|s|]; eauto. destruct z as [|p|p]; eauto. destruct p; eauto using near_rev.
Qed.

(** Every list of elements, each with any history, written without an exception: in the file
    opened, every line, special line and front whose coordinates are degrees has its points, in
    order, none moved by more than half a hundredth of a degree and what a 32-bit float loses. *)
Theorem C47_points : forall tca l bs,
  Forall built l -> Forall readable l -> to_vgf l = (bs, None) ->
  exists st, opens tca bs (Ok st) /\
    Forall2 (fun o e => has_path o -> Forall degrees (o_lat o) -> Forall degrees (o_lon o) -> same_points o e) l (vs_elements st).
Proof.
  intros tca l bs B R W. destruct (Props_VgfTrip.C47_round_trip_partial tca l bs B R W) as (st & x & O & F & _).
  exists st. split; [exact O|]. clear - F. induction F as [|o e l es S F IH]; constructor; [|exact IH].
  intros K DA DO. destruct S as [_ _ _ SA SO]. destruct (path_read o (o_lat o) K DA) as (a & EA & NA). destruct (path_read o (o_lon o) K DO) as (b & EB & NB).
  exists a, b. rewrite SA, SO. auto.
Qed.
Print Assumptions C47_points.

(** The coordinate is the stored one to 0.0052 degrees. *)
Theorem C47_distance : forall x y, hundredth_near x y -> (Qabs (q_of y - q_of x) <= 52 # 10000)%Q.
Proof.
  intros x y (_ & n & A & B). setoid_replace (q_of y - q_of x)%Q with ((q_of y - inject_Z n / 100) + (inject_Z n / 100 - q_of x))%Q by ring.
  eapply Qle_trans; [apply Qabs_triangle|]. eapply Qle_trans; [apply Qplus_le_compat; eassumption|]. discriminate.
Qed.
Print Assumptions C47_distance.

Lemma rounded_near d eps v w : 0 <= d <= 3 -> ((1 # 2) / inject_Z (10 ^ d) + pow2q (-22) + (44 # 1000000) <= eps)%Q ->
  read_as (Rounded d) v w -> value_near eps v w.
Proof.
  intros Hd HE (x & N & ->) x' V D.
  assert (x' = x) by (destruct v; cbn in N, V; congruence || contradiction). subst x'. destruct D as [F B].
  destruct (np32_near x F B) as [F1 E1].
  assert (B1 : (Qabs (q_of (np32 x)) <= 2000000)%Q).
  { setoid_replace (q_of (np32 x)) with ((q_of (np32 x) - q_of x) + q_of x)%Q by ring. eapply Qle_trans; [apply Qabs_triangle|].
    eapply Qle_trans; [apply Qplus_le_compat; eassumption|]. discriminate. }
  destruct (py_round_near d (np32 x) Hd F1 B1) as [F2 E2]. eexists. split; [reflexivity|]. split; [exact F2|].
  setoid_replace (q_of (py_round d (np32 x)) - q_of x)%Q with ((q_of (py_round d (np32 x)) - q_of (np32 x)) + (q_of (np32 x) - q_of x))%Q by ring.
  eapply Qle_trans; [apply Qabs_triangle|]. eapply Qle_trans; [apply Qplus_le_compat; eassumption|]. exact HE.
Qed.

(** Likewise the bounds of every element, the position of symbols and text to half a hundredth,
    and sizes and rotations to half a tenth. *)
Theorem C47_places : forall tca l bs,
  Forall built l -> Forall readable l -> to_vgf l = (bs, None) ->
  exists st, opens tca bs (Ok st) /\ Forall2 same_place l (vs_elements st).
Proof.
  intros tca l bs B R W. destruct (Props_VgfTrip.C47_round_trip_partial tca l bs B R W) as (st & x & O & F & _).
  exists st. split; [exact O|]. clear - F. induction F as [|o e l es S F IH]; constructor; [|exact IH].
  destruct S as [_ [_ SH] SF _ _].
  assert (N2 : forall v w, read_as (Rounded 2) v w -> value_near (51 # 10000) v w) by (intros v w; apply rounded_near; [lia|vm_compute; discriminate]).
  assert (N1 : forall v w, read_as (Rounded 1) v w -> value_near (501 # 10000) v w) by (intros v w; apply rounded_near; [lia|vm_compute; discriminate]).
  rewrite Forall_forall in SH, SF.
  assert (G : forall a d eps, (forall v w, read_as (Rounded d) v w -> value_near eps v w) -> In (a, a, Rounded d) (fields_of (o_kind o)) ->
    exists w, lookup a (ve_attrs e) = Some w /\ value_near eps (o_get o a) w).
  { intros a d eps N I. destruct (SF _ I) as (w & L & RA). eauto. }
  unfold same_place.
  split; [apply N2, (SH ("min_lat", vh_min_lat (ve_hdr e))); cbn; tauto|].
  split; [apply N2, (SH ("max_lat", vh_max_lat (ve_hdr e))); cbn; tauto|].
  split; [apply N2, (SH ("min_lon", vh_min_lon (ve_hdr e))); cbn; tauto|].
  split; [apply N2, (SH ("max_lon", vh_max_lon (ve_hdr e))); cbn; tauto|].
  cbv zeta. destruct (o_kind o); try exact I; repeat split; (apply (G _ 2 _ N2) || apply (G _ 1 _ N1)); cbn; tauto.
Qed.
Print Assumptions C47_places.

(** A line of three points, two of them not on a hundredth, closed *)
Definition ex_o : obj :=
  Props_Vgf.got (new_line [of_Z 10; of_Z 20; fdiv (of_Z 100) (of_Z 7)] [of_Z 30; fdiv (of_Z 321) (of_Z 8); of_Z (-5)] (VInt 2) (VInt 1) (VInt 1) (VInt 0) (VInt 0) (VInt 3)).
Example C47_points_ex : Forall built [ex_o] /\ Forall readable [ex_o] /\ snd (to_vgf [ex_o]) = None /\ has_path ex_o /\
  Forall degrees (o_lat ex_o) /\ Forall degrees (o_lon ex_o) /\ length (path ex_o (o_lat ex_o)) = 4%nat.
Proof.
  split. { constructor; [|constructor]. eapply b_line. apply Props_Vgf.got_ok. vm_compute. reflexivity. }
  split. { constructor; [|constructor]. apply Props_VgfTrip.readable_check; vm_compute; reflexivity. }
  split; [vm_compute; reflexivity|]. split; [left; vm_compute; reflexivity|].
  assert (D : forall l, forallb (fun x => finite x && Qle_bool (Qabs (q_of x)) 360) l = true -> Forall degrees l).
  { intros l H. apply Forall_forall. intros x I. rewrite forallb_forall in H. specialize (H x I). apply andb_prop in H as [H1 H2]. split; [exact H1|]. apply Qle_bool_iff, H2. }
  split; [apply D; vm_compute; reflexivity|]. split; [apply D; vm_compute; reflexivity|]. vm_compute. reflexivity.
Qed.

(** A symbol at 40.123 north, 7.5 west *)
Definition ex_s : obj :=
  Props_Vgf.got (new_symbol true (VFloat (fdiv (of_Z (-15)) (of_Z 2))) (VFloat (fdiv (of_Z 40123) (of_Z 1000))) (VInt 7) (VInt 3) (VInt 1) (VInt 1) (VInt 0) (VInt 0)).
Example C47_places_ex : Forall built [ex_s] /\ Forall readable [ex_s] /\ snd (to_vgf [ex_s]) = None /\
  o_get ex_s "lat" = VFloat (fdiv (of_Z 40123) (of_Z 1000)) /\ degrees (fdiv (of_Z 40123) (of_Z 1000)) /\
  match vgf_open Props_VgfTrip.no_tca 10 (fst (to_vgf [ex_s])) with
  | Some (Ok st) => map (fun e => lookup "lat" (ve_attrs e)) (vs_elements st) = [Some (VFloat (fdiv (of_Z 4012) (of_Z 100)))]
  | _ => False
  end.
Proof.
  split. { constructor; [|constructor]. apply (b_symbol true (VFloat (fdiv (of_Z (-15)) (of_Z 2))) (VFloat (fdiv (of_Z 40123) (of_Z 1000))) (VInt 7) (VInt 3) (VInt 1) (VInt 1) (VInt 0) (VInt 0)). apply Props_Vgf.got_ok. vm_compute. reflexivity. }
  split. { constructor; [|constructor]. apply Props_VgfTrip.readable_check; vm_compute; reflexivity. }
  split; [vm_compute; reflexivity|]. split; [vm_compute; reflexivity|]. split; [split; [reflexivity|apply Qle_bool_iff; vm_compute; reflexivity]|].
  vm_compute. reflexivity.
Qed.
