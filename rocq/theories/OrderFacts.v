(** Orders, sets, dicts and sorting. *)
From Coq Require Import Lia ZifyBool ZifyNat QArith Permutation Sorted.
From Verif Require Import Base BaseFacts Floats Strings Dates Headers Order.
Open Scope Z_scope.

(** A comparison that orders its equivalence classes totally. *)
Record good_cmp {A} (f : A -> A -> comparison) : Prop := {
  gc_refl : forall x, f x x = Eq;
  gc_opp : forall x y, f y x = CompOpp (f x y);
  gc_eq : forall x y z, f x y = Eq -> f x z = f y z;
  gc_lt : forall x y z, f x y = Lt -> f y z = Lt -> f x z = Lt
}.
Arguments gc_refl {A f}. Arguments gc_opp {A f}. Arguments gc_eq {A f}. Arguments gc_lt {A f}.

Lemma gc_sym {A} (f : A -> A -> comparison) x y : good_cmp f -> f x y = Eq -> f y x = Eq.
Proof. intros G H. rewrite (gc_opp G x y), H. reflexivity. Qed.
Lemma gc_trans {A} (f : A -> A -> comparison) x y z : good_cmp f -> f x y = Eq -> f y z = Eq -> f x z = Eq.
Proof. intros G H1 H2. rewrite (gc_eq G _ _ z H1). exact H2. Qed.
Lemma gc_eq_r {A} (f : A -> A -> comparison) x y z : good_cmp f -> f x y = Eq -> f z x = f z y.
Proof. intros G H. rewrite (gc_opp G x z), (gc_opp G y z), (gc_eq G _ _ z H). reflexivity. Qed.

Lemma good_lex {A} (f g : A -> A -> comparison) : good_cmp f -> good_cmp g ->
  good_cmp (fun x y => then_cmp (f x y) (g x y)).
Proof.
  intros F G. split.
  - intros x. rewrite (gc_refl F), (gc_refl G). reflexivity.
  - intros x y. rewrite (gc_opp F x y), (gc_opp G x y). destruct (f x y); reflexivity.
  - intros x y z H. destruct (f x y) eqn:E; try discriminate H. cbn in H.
    rewrite (gc_eq F _ _ z E), (gc_eq G _ _ z H). reflexivity.
  - intros x y z H1 H2. destruct (f x y) eqn:E1; try discriminate H1; cbn in H1.
    + rewrite (gc_eq F _ _ z E1). destruct (f y z); try discriminate H2; [|reflexivity]. cbn in *.
      exact (gc_lt G _ _ _ H1 H2).
    + destruct (f y z) eqn:E2; try discriminate H2.
      * rewrite <- (gc_eq_r f y z x F E2), E1. reflexivity.
      * rewrite (gc_lt F _ _ _ E1 E2). reflexivity.
Qed.
Lemma good_on {A B} (g : A -> B) f : good_cmp f -> good_cmp (fun x y => f (g x) (g y)).
Proof. intros [R O E L]. split; intros; eauto. Qed.

Lemma good_Z : good_cmp Z.compare.
Proof.
  split.
  - apply Z.compare_refl.
  - intros x y. apply Z.compare_antisym.
  - intros x y z H. apply Z.compare_eq in H. subst y. reflexivity.
  - intros x y z. rewrite !Z.compare_lt_iff. lia.
Qed.
Lemma good_Q : good_cmp Qcompare.
Proof.
  split.
  - intros x. apply Qeq_alt. reflexivity.
  - intros x y. symmetry. apply Qcompare_antisym.
  - intros x y z H. apply Qeq_alt in H. rewrite H. reflexivity.
  - intros x y z. rewrite <- !Qlt_alt. apply Qlt_trans.
Qed.

Lemma str_cmp_eq a : forall b, str_cmp a b = Eq <-> a = b.
Proof.
  induction a as [|x a IH]; intros [|y b]; cbn; split; intros H; try reflexivity; try discriminate H.
  - destruct (x ?= y) eqn:E; try discriminate H. apply Z.compare_eq in E. apply IH in H. subst. reflexivity.
  - injection H as -> ->. rewrite Z.compare_refl. apply IH. reflexivity.
Qed.
Lemma good_str : good_cmp str_cmp.
Proof.
  split.
  - intros x. apply str_cmp_eq. reflexivity.
  - induction x as [|x a IH]; intros [|y b]; cbn; try reflexivity.
    rewrite (Z.compare_antisym x y). destruct (x ?= y); cbn; auto.
  - intros x y z H. apply str_cmp_eq in H. subst y. reflexivity.
  - induction x as [|x a IH]; intros [|y b] [|z c]; cbn; intros H1 H2; try reflexivity; try discriminate H1; try discriminate H2.
    destruct (x ?= y) eqn:E1; try discriminate H1.
    + apply Z.compare_eq in E1. subst y. destruct (x ?= z); try discriminate H2; [|reflexivity]. eauto.
    + destruct (y ?= z) eqn:E2; try discriminate H2.
      * apply Z.compare_eq in E2. subst y. rewrite E1. reflexivity.
      * rewrite Z.compare_lt_iff in E1, E2. assert (E : (x ?= z) = Lt) by (rewrite Z.compare_lt_iff; lia).
        rewrite E. reflexivity.
Qed.
Lemma good_num : good_cmp num_cmp.
Proof. apply good_lex; [apply (good_on num_rank), good_Z|apply (good_on num_value), good_Q]. Qed.
Lemma good_date : good_cmp date_cmp.
Proof.
  apply good_lex; [apply (good_on da_y), good_Z|].
  apply good_lex; [apply (good_on da_mo), good_Z|apply (good_on da_d), good_Z].
Qed.
Lemma good_time : good_cmp time_cmp.
Proof.
  apply good_lex; [apply (good_on ti_h), good_Z|].
  apply good_lex; [apply (good_on ti_mi), good_Z|].
  apply good_lex; [apply (good_on ti_s), good_Z|apply (good_on ti_us), good_Z].
Qed.
Lemma then_cmp_eq c d : then_cmp c d = Eq <-> c = Eq /\ d = Eq.
Proof. destruct c; cbn; intuition discriminate. Qed.
Lemma date_cmp_eq a b : date_cmp a b = Eq <-> a = b.
Proof.
  unfold date_cmp. rewrite !then_cmp_eq, !Z.compare_eq_iff. destruct a, b. cbn. split.
  - intros (-> & -> & ->). reflexivity.
  - intros [= -> -> ->]. auto.
Qed.
Lemma time_cmp_eq a b : time_cmp a b = Eq <-> a = b.
Proof.
  unfold time_cmp. rewrite !then_cmp_eq, !Z.compare_eq_iff. destruct a, b. cbn. split.
  - intros (-> & -> & -> & ->). reflexivity.
  - intros [= -> -> -> ->]. auto.
Qed.

(** ** Containers *)
Section Facts.
  Context {K : Type} (cmp : K -> K -> comparison) (G : good_cmp cmp).
  Notation same x y := (cmp x y = Eq).

  Lemma is_eq_true c : is_eq c = true <-> c = Eq.
  Proof. destruct c; cbn; intuition discriminate. Qed.
  Lemma mem_spec x l : mem cmp x l = true <-> exists y, In y l /\ same x y.
  Proof. unfold mem. rewrite existsb_exists. split; intros (y & H1 & H2); exists y; rewrite is_eq_true in *; auto. Qed.
  Lemma mem_false x l : mem cmp x l = false <-> forall y, In y l -> cmp x y <> Eq.
  Proof.
    split.
    - intros H y HI HE. assert (mem cmp x l = true) by (apply mem_spec; eauto). congruence.
    - intros H. destruct (mem cmp x l) eqn:E; [|reflexivity]. apply mem_spec in E as (y & H1 & H2).
      exfalso. exact (H y H1 H2).
  Qed.

  (** No two elements are the same. *)
  Definition distinct (l : list K) : Prop := ForallOrdPairs (fun x y => cmp x y <> Eq) l.

  Lemma distinct_app_one l x : distinct l -> (forall y, In y l -> cmp y x <> Eq) -> distinct (l ++ [x]).
  Proof.
    intros D. induction D as [|a l HA HD IH]; intros H; cbn.
    - constructor; constructor.
    - constructor.
      + apply Forall_app. split; [exact HA|]. constructor; [|constructor]. apply H. left. reflexivity.
      + apply IH. intros y HI. apply H. right. exact HI.
  Qed.
  Lemma set_add_distinct x l : distinct l -> distinct (set_add cmp x l).
  Proof.
    intros D. unfold set_add. destruct (mem cmp x l) eqn:E; [exact D|].
    apply distinct_app_one; [exact D|]. intros y HI HE. apply (gc_sym _ _ _ G) in HE.
    exact (proj1 (mem_false x l) E y HI HE).
  Qed.
  Lemma set_add_has x l : mem cmp x (set_add cmp x l) = true.
  Proof.
    unfold set_add. destruct (mem cmp x l) eqn:E; [exact E|]. apply mem_spec. exists x.
    split; [apply in_or_app; right; left; reflexivity|apply (gc_refl G)].
  Qed.
  Lemma set_add_keeps x l y : In y l -> In y (set_add cmp x l).
  Proof. unfold set_add. destruct (mem cmp x l); [auto|]. intros. apply in_or_app. left. assumption. Qed.
  Lemma set_add_in x l y : In y (set_add cmp x l) -> In y l \/ y = x.
  Proof.
    unfold set_add. destruct (mem cmp x l); [auto|]. intros H. apply in_app_or in H as [H|[H|[]]]; auto.
  Qed.
  Lemma mem_mono x l l' : (forall y, In y l -> In y l') -> mem cmp x l = true -> mem cmp x l' = true.
  Proof. rewrite !mem_spec. intros H (y & H1 & H2). eauto. Qed.
  Lemma mem_same x y l : same x y -> mem cmp x l = mem cmp y l.
  Proof.
    intros H. unfold mem. induction l as [|z l IH]; [reflexivity|]. cbn. rewrite IH, (gc_eq G x y z H). reflexivity.
  Qed.

  (** Sorting *)
  Lemma insert_perm x l : Permutation (insert cmp x l) (x :: l).
  Proof.
    induction l as [|y l IH]; cbn; [apply Permutation_refl|].
    destruct (cmp x y); try apply Permutation_refl.
    eapply Permutation_trans; [apply perm_skip, IH|apply perm_swap].
  Qed.
  Lemma sort_perm l : Permutation (sort cmp l) l.
  Proof.
    induction l as [|x l IH]; cbn; [constructor|].
    eapply Permutation_trans; [apply insert_perm|apply perm_skip, IH].
  Qed.
  Lemma sort_in x l : In x (sort cmp l) <-> In x l.
  Proof. split; apply Permutation_in; [apply sort_perm|symmetry; apply sort_perm]. Qed.
  Lemma sort_length l : length (sort cmp l) = length l.
  Proof. apply Permutation_length, sort_perm. Qed.
  Definition le_cmp x y : Prop := cmp x y <> Gt.
  Lemma le_trans x y z : le_cmp x y -> le_cmp y z -> le_cmp x z.
  Proof.
    unfold le_cmp. intros H1 H2. destruct (cmp x y) eqn:E1; [|destruct (cmp y z) eqn:E2|congruence].
    - rewrite (gc_eq G _ _ z E1). exact H2.
    - rewrite <- (gc_eq_r _ _ _ x G E2), E1. discriminate.
    - rewrite (gc_lt G _ _ _ E1 E2). discriminate.
    - congruence.
  Qed.
  Lemma insert_sorted x l : StronglySorted le_cmp l -> StronglySorted le_cmp (insert cmp x l).
  Proof.
    intros S. induction S as [|y l S IH H]; cbn.
    - constructor; constructor.
    - destruct (cmp x y) eqn:E.
      + constructor; [constructor; assumption|]. constructor; [unfold le_cmp; rewrite E; discriminate|].
        eapply Forall_impl; [|exact H]. intros z. apply le_trans. unfold le_cmp. rewrite E. discriminate.
      + constructor; [constructor; assumption|]. constructor; [unfold le_cmp; rewrite E; discriminate|].
        eapply Forall_impl; [|exact H]. intros z. apply le_trans. unfold le_cmp. rewrite E. discriminate.
      + constructor; [exact IH|]. rewrite Forall_forall in *. intros z HI.
        apply (Permutation_in _ (insert_perm x l)) in HI as [<-|HI]; [|auto].
        unfold le_cmp. rewrite (gc_opp G x y), E. discriminate.
  Qed.
  Lemma sort_sorted l : StronglySorted le_cmp (sort cmp l).
  Proof. induction l; cbn; [constructor|apply insert_sorted; assumption]. Qed.

  Lemma distinct_alt l : distinct l <-> (forall i j x y, nth_error l i = Some x -> nth_error l j = Some y -> i <> j -> cmp x y <> Eq).
  Proof.
    split.
    - intros D. induction D as [|a l HA D IH]; intros i j x y H1 H2 HN; [destruct i; discriminate H1|].
      rewrite Forall_forall in HA. destruct i as [|i], j as [|j]; cbn in H1, H2.
      + congruence.
      + injection H1 as <-. apply HA. exact (nth_error_In _ _ H2).
      + injection H2 as <-. intros HE. apply (gc_sym _ _ _ G) in HE. revert HE. apply HA. exact (nth_error_In _ _ H1).
      + apply (IH i j); auto.
    - intros H. induction l as [|a l IH]; [constructor|]. constructor.
      + apply Forall_forall. intros y HI. apply In_nth_error in HI as (j & Hj).
        apply (H 0%nat (S j)); [reflexivity|exact Hj|discriminate].
      + apply IH. intros i j x y H1 H2 HN. apply (H (S i) (S j)); auto.
  Qed.
  Lemma distinct_perm l l' : Permutation l l' -> distinct l -> distinct l'.
  Proof.
    intros P. induction P as [|x l l' P IH|x y l|l1 l2 l3 P1 IH1 P2 IH2]; intros D.
    - exact D.
    - inversion D as [|? ? H1 H2]; subst. constructor; [|apply IH; exact H2]. exact (Permutation_Forall P H1).
    - inversion D as [|? ? H1 H2]; subst. inversion H2 as [|? ? H3 H4]; subst. inversion H1 as [|? ? H5 H6]; subst.
      constructor; [constructor; [|assumption]|constructor; assumption].
      intros HE. apply (gc_sym _ _ _ G) in HE. exact (H5 HE).
    - auto.
  Qed.
  Lemma distinct_NoDup l : distinct l -> NoDup l.
  Proof.
    intros D. induction D as [|a l HA D IH]; constructor; [|exact IH].
    intros HI. rewrite Forall_forall in HA. exact (HA a HI (gc_refl G a)).
  Qed.
  (** In a list of distinct elements, the element equivalent to x is unique. *)
  Lemma distinct_unique l x y : distinct l -> In x l -> In y l -> same x y -> x = y.
  Proof.
    intros D Hx Hy HE. apply In_nth_error in Hx as (i & Hi). apply In_nth_error in Hy as (j & Hj).
    destruct (Nat.eq_dec i j) as [<-|HN]; [congruence|].
    exfalso. exact (proj1 (distinct_alt l) D i j x y Hi Hj HN HE).
  Qed.

  (** Dicts *)
  Section Dict.
    Context {V : Type}.
    Implicit Types d : list (K * V).
    Lemma dict_get_same k k' d : same k k' -> dict_get cmp k d = dict_get cmp k' d.
    Proof.
      intros H. induction d as [|[a v] d IH]; [reflexivity|]. cbn. rewrite IH, (gc_eq G k k' a H). reflexivity.
    Qed.
    Lemma dict_set_get k v d k' :
      dict_get cmp k' (dict_set cmp k v d) = if is_eq (cmp k' k) then Some v else dict_get cmp k' d.
    Proof.
      induction d as [|[a w] d IH]; cbn; [reflexivity|].
      destruct (is_eq (cmp k a)) eqn:E; cbn.
      - apply is_eq_true in E. rewrite (gc_eq_r _ _ _ k' G E). destruct (is_eq (cmp k' a)); reflexivity.
      - rewrite IH. destruct (is_eq (cmp k' a)) eqn:E1; [|reflexivity].
        destruct (is_eq (cmp k' k)) eqn:E2; [|reflexivity]. exfalso.
        apply is_eq_true in E1, E2. rewrite <- (gc_eq G _ _ a E2) in E. rewrite E1 in E. discriminate E.
    Qed.
    Lemma dict_set_keys k v d : map fst (dict_set cmp k v d) = set_add cmp k (map fst d).
    Proof.
      unfold set_add. induction d as [|[a w] d IH]; cbn; [reflexivity|].
      destruct (is_eq (cmp k a)); cbn; [reflexivity|]. rewrite IH. unfold mem. cbn.
      destruct (existsb _ (map fst d)); reflexivity.
    Qed.
    Lemma dict_get_in k d v : dict_get cmp k d = Some v -> exists k', same k k' /\ In (k', v) d.
    Proof.
      induction d as [|[a w] d IH]; cbn; [discriminate|].
      destruct (is_eq (cmp k a)) eqn:E.
      - intros [= <-]. exists a. apply is_eq_true in E. split; [exact E|left; reflexivity].
      - intros H. destruct (IH H) as (k' & H1 & H2). exists k'. split; [exact H1|right; exact H2].
    Qed.
    Lemma dict_get_none k d : dict_get cmp k d = None <-> mem cmp k (map fst d) = false.
    Proof.
      induction d as [|[a w] d IH]; cbn; [intuition|]. unfold mem in *. cbn.
      destruct (is_eq (cmp k a)); cbn; [intuition discriminate|exact IH].
    Qed.
    Lemma dict_in_get k v d : distinct (map fst d) -> In (k, v) d -> dict_get cmp k d = Some v.
    Proof.
      intros D. induction d as [|[a w] d IH]; [intros []|]. cbn in D. inversion D as [|? ? H1 H2]; subst.
      intros [H|H]; cbn.
      - injection H as -> ->. rewrite (gc_refl G). reflexivity.
      - destruct (is_eq (cmp k a)) eqn:E; [|auto]. exfalso. apply is_eq_true in E.
        rewrite Forall_forall in H1. apply (H1 k); [|exact (gc_sym _ _ _ G E)].
        apply in_map_iff. exists (k, v). auto.
    Qed.
  End Dict.
End Facts.
