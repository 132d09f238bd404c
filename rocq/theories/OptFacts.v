(** The options handler. *)
From Coq Require Import String ZArith List Arith Bool Reals Lra Lia.
From Verif Require Import Prelude ListFacts F64 Num Np Handlers SpecOpts.
Import ListNotations.
Local Open Scope string_scope.
Local Open Scope list_scope.

Section Opts.
Context {N : Num}.
Implicit Types (start opts : options N) (k : oh_kwargs N) (lib : oh_lib N).

Lemma num_of_holds : forall o key x, num_of (N := N) o key = Ok x <-> holds o key x.
Proof.
  unfold num_of, holds, of_option. intros o key x. destruct (dget o key) as [[z|y]|]; simpl; split; intros H.
  - injection H as <-. right. eauto.
  - destruct H as [H|(z' & H & ->)]; [discriminate|]. injection H as ->. reflexivity.
  - injection H as <-. auto.
  - destruct H as [H|(z' & H & ->)]; [|discriminate]. injection H as ->. reflexivity.
  - discriminate.
  - destruct H as [H|(z' & H & _)]; discriminate.
Qed.
Lemma num_of_err : forall o key x, num_of (N := N) o key = Err x <-> x = KeyError /\ dget o key = None.
Proof.
  unfold num_of, of_option. intros o key x. destruct (dget o key) as [v|]; simpl; split; intros H; try discriminate.
  - destruct H; discriminate.
  - injection H as <-. auto.
  - destruct H as [-> _]. reflexivity.
Qed.
Lemma num_of_total : forall o key, dget o key <> None -> exists x, num_of (N := N) o key = Ok x.
Proof. unfold num_of, of_option. intros o key H. destruct (dget o key); [simpl; eauto|congruence]. Qed.

(** [dget] of the default end values. *)
Lemma default_cases : forall (a b c : N) opt,
  (opt = "w" /\ dget [("w", a); ("c1", b); ("c2", c)] opt = Some a) \/
  (opt = "c1" /\ dget [("w", a); ("c1", b); ("c2", c)] opt = Some b) \/
  (opt = "c2" /\ dget [("w", a); ("c1", b); ("c2", c)] opt = Some c) \/
  (~ In opt ["w"; "c1"; "c2"] /\ dget [("w", a); ("c1", b); ("c2", c)] opt = None).
Proof.
  intros a b c opt. cbn [dget].
  destruct (String.eqb_spec opt "w"); [left; auto|]. destruct (String.eqb_spec opt "c1"); [right; left; auto|].
  destruct (String.eqb_spec opt "c2"); [right; right; left; auto|]. right; right; right. split; auto. simpl. intuition congruence.
Qed.
Lemma end_value_ok : forall start opt k x, end_value start opt k = Ok x ->
  dget start "c1" <> None /\ dget start "c2" <> None /\ ends_at start k opt x.
Proof.
  unfold end_value. intros start opt k x H. apply bind_Ok in H. destruct H as (c1 & C1 & H). apply bind_Ok in H. destruct H as (c2 & C2 & H).
  assert (K1 : dget start "c1" <> None) by (intros Q; unfold num_of in C1; rewrite Q in C1; discriminate).
  assert (K2 : dget start "c2" <> None) by (intros Q; unfold num_of in C2; rewrite Q in C2; discriminate).
  apply num_of_holds in C1, C2. split; auto. split; auto. unfold ends_at.
  destruct (ok_end k) as [e|].
  - destruct (dget e opt) as [v|] eqn:E.
    + injection H as <-. left. eauto.
    + right. split. { intros e' Q. injection Q as <-. auto. }
      destruct (default_cases (ndec 4 10) (nmul (ndec 8 10) c1) (nmul (nofZ 1) c2) opt) as [[-> D]|[[-> D]|[[-> D]|[_ D]]]];
        unfold of_option in H; rewrite D in H; try discriminate; injection H as <-; eauto 8.
  - right. split; [discriminate|].
      destruct (default_cases (ndec 4 10) (nmul (ndec 8 10) c1) (nmul (nofZ 1) c2) opt) as [[-> D]|[[-> D]|[[-> D]|[_ D]]]];
        unfold of_option in H; rewrite D in H; try discriminate; injection H as <-; eauto 8.
Qed.
Lemma end_value_err : forall start opt k x, end_value start opt k = Err x <->
  x = KeyError /\ (dget start "c1" = None \/ dget start "c2" = None \/
    ((forall e, ok_end k = Some e -> dget e opt = None) /\ ~ In opt ["w"; "c1"; "c2"])).
Proof.
  intros start opt k x. unfold end_value.
  destruct (num_of start "c1") as [c1|x1] eqn:C1; cbn [bind].
  2:{ apply num_of_err in C1. destruct C1 as [-> C1]. split; [intros H; injection H as <-; auto|intros [-> _]; reflexivity]. }
  destruct (num_of start "c2") as [c2|x1] eqn:C2; cbn [bind].
  2:{ apply num_of_err in C2. destruct C2 as [-> C2]. split; [intros H; injection H as <-; auto|intros [-> _]; reflexivity]. }
  assert (K1 : dget start "c1" <> None) by (intros Q; unfold num_of in C1; rewrite Q in C1; discriminate).
  assert (K2 : dget start "c2" <> None) by (intros Q; unfold num_of in C2; rewrite Q in C2; discriminate).
  set (df := [("w", ndec 4 10); ("c1", nmul (ndec 8 10) c1); ("c2", nmul (nofZ 1) c2)]).
  assert (D : of_option KeyError (dget df opt) = Err x <-> x = KeyError /\ ~ In opt ["w"; "c1"; "c2"]).
  { destruct (default_cases (ndec 4 10) (nmul (ndec 8 10) c1) (nmul (nofZ 1) c2) opt) as [[-> D]|[[-> D]|[[-> D]|[I D]]]];
      fold df in D; rewrite D; cbn [of_option]; split; intros Q; try discriminate; try (destruct Q as [_ Q]; exfalso; apply Q; simpl; tauto).
    - injection Q as <-. auto.
    - destruct Q as [-> _]. reflexivity. }
  destruct (ok_end k) as [e|].
  - destruct (dget e opt) as [v|] eqn:E.
    + split; [discriminate|]. intros (_ & [H|[H|[H _]]]); try congruence. specialize (H e eq_refl). congruence.
    + rewrite D. split.
      * intros [-> Q]. split; auto. right; right. split; auto. intros e' H. injection H as <-. auto.
      * intros (-> & [H|[H|[_ H]]]); try congruence. auto.
  - rewrite D. split.
    + intros [-> Q]. split; auto. right; right. split; auto. discriminate.
    + intros (-> & [H|[H|[_ H]]]); try congruence. auto.
Qed.
Lemma iters_of_ok : forall k i m, iters_of k = Ok (i, m) <-> ok_iternow k = Some i /\ ok_itermax k = Some m.
Proof.
  unfold iters_of. intros k i m. destruct (ok_iternow k), (ok_itermax k); simpl; split; intros H; try discriminate; try (destruct H; discriminate).
  - injection H as <- <-. auto.
  - destruct H as [A B]. congruence.
Qed.
Lemma iters_of_err : forall k x, iters_of k = Err x <-> x = KeyError /\ (ok_iternow k = None \/ ok_itermax k = None).
Proof.
  unfold iters_of. intros k x. destruct (ok_iternow k), (ok_itermax k); simpl; split; intros H; try discriminate;
    try (destruct H as (_ & [|]); discriminate); try (injection H as <-; auto); destruct H as (-> & _); reflexivity.
Qed.
Lemma dflt_spec : forall (o : option N) (d : N), o = Some (dflt o d) \/ o = None /\ dflt o d = d.
Proof. intros [x|] d; simpl; auto. Qed.

Lemma strategy_cases : forall st, (st = "exp_decay" \/ st = "lin_variation" \/ st = "random" \/ st = "nonlin_mod") \/
  ~ In st ["exp_decay"; "lin_variation"; "random"; "nonlin_mod"].
Proof.
  intros st. destruct (in_dec string_dec st ["exp_decay"; "lin_variation"; "random"; "nonlin_mod"]) as [I|]; auto.
  left. simpl in I. intuition congruence.
Qed.
Lemma oh_one_unknown : forall lib st start opt k, ~ In st ["exp_decay"; "lin_variation"; "random"; "nonlin_mod"] ->
  oh_one lib st start opt k = Err KeyError.
Proof.
  intros lib st start opt k H. unfold oh_one.
  destruct (String.eqb_spec st "exp_decay"); [subst; simpl in H; tauto|]. destruct (String.eqb_spec st "lin_variation"); [subst; simpl in H; tauto|].
  destruct (String.eqb_spec st "random"); [subst; simpl in H; tauto|]. destruct (String.eqb_spec st "nonlin_mod"); [subst; simpl in H; tauto|]. reflexivity.
Qed.

(** A value that is returned is the documented one. *)
Lemma oh_one_ok : forall lib st start opt k x, oh_one lib st start opt k = Ok x -> new_value lib start k opt st x.
Proof.
  intros lib st start opt k x H. destruct (strategy_cases st) as [[ -> |[ -> |[ -> | -> ]]]|U].
  - cbn in H. unfold oh_exp_decay in H. apply bind_Ok in H. destruct H as (e & E & H). apply bind_Ok in H. destruct H as (s & S & H).
    apply bind_Ok in H. destruct H as ([i m] & I & H). apply iters_of_ok in I. destruct I as [I1 I2]. apply num_of_holds in S.
    destruct (end_value_ok _ _ _ _ E) as (E1 & E2 & E'). destruct (Z.eqb_spec m 0); [discriminate|].
    destruct (neq _ _) eqn:Z0 in H; [discriminate|]. injection H as <-. eapply NV_exp; eauto using dflt_spec. split; auto.
  - cbn in H. unfold oh_lin_variation in H. apply bind_Ok in H. destruct H as (e & E & H). apply bind_Ok in H. destruct H as (s & S & H).
    apply bind_Ok in H. destruct H as ([i m] & I & H). apply iters_of_ok in I. destruct I as [I1 I2]. apply num_of_holds in S.
    destruct (end_value_ok _ _ _ _ E) as (E1 & E2 & E'). destruct (Z.eqb_spec m 0); [discriminate|].
    injection H as <-. eapply NV_lin; eauto. split; auto.
  - cbn in H. unfold oh_random in H. apply bind_Ok in H. destruct H as (s & S & H). apply num_of_holds in S.
    apply bind_Ok in H. destruct H as (eo & E & H). destruct (ok_end k) as [e0|] eqn:EK; [|discriminate]. injection E as ->. injection H as <-.
    destruct (dget eo opt) as [e|] eqn:D; [eapply NV_random_end | eapply NV_random_plus]; eauto.
  - cbn in H. unfold oh_nonlin_mod in H. apply bind_Ok in H. destruct H as (e & E & H). apply bind_Ok in H. destruct H as (s & S & H).
    apply bind_Ok in H. destruct H as ([i m] & I & H). apply iters_of_ok in I. destruct I as [I1 I2]. apply num_of_holds in S.
    destruct (end_value_ok _ _ _ _ E) as (E1 & E2 & E'). destruct (Z.ltb_spec (m - i) 0); [discriminate|].
    destruct (neq _ _) eqn:Z0 in H; [discriminate|]. injection H as <-. eapply NV_nonlin; eauto using dflt_spec; [split; auto|lia].
  - rewrite oh_one_unknown in H by auto. discriminate.
Qed.
Lemma end_value_of : forall start opt k x, has_defaults start -> ends_at start k opt x -> end_value start opt k = Ok x.
Proof.
  intros start opt k x [H1 H2] E. destruct (end_value start opt k) as [y|y] eqn:V.
  - unfold end_value in V. destruct (num_of_total start "c1" H1) as [c1 C1]. destruct (num_of_total start "c2" H2) as [c2 C2].
    rewrite C1, C2 in V. cbn [bind] in V. destruct E as [(e & E1 & E2)|(E0 & E)].
    + rewrite E1, E2 in V. injection V as <-. reflexivity.
    + assert (Q : match match ok_end k with Some e => dget e opt | None => None end with Some v => Ok v
         | None => of_option KeyError (dget [("w", ndec 4 10); ("c1", nmul (ndec 8 10) c1); ("c2", nmul (nofZ 1) c2)] opt) end =
         of_option KeyError (dget [("w", ndec 4 10); ("c1", nmul (ndec 8 10) c1); ("c2", nmul (nofZ 1) c2)] opt)).
      { destruct (ok_end k) as [e|]; auto. rewrite (E0 e eq_refl). reflexivity. }
      rewrite Q in V. destruct E as [[-> ->]|[[-> (c & C & ->)]|[-> (c & C & ->)]]]; cbn in V; injection V as <-; auto;
        apply num_of_holds in C; congruence.
  - apply end_value_err in V. destruct V as (_ & [V|[V|[V1 V2]]]); try congruence. destruct E as [(e & E1 & E2)|(E0 & E)].
    + rewrite (V1 e E1) in E2. discriminate.
    + exfalso. apply V2. destruct E as [[-> _]|[[-> _]|[-> _]]]; simpl; auto.
Qed.
Lemma dflt_of : forall (o : option N) (d x : N), o = Some x \/ o = None /\ x = d -> dflt o d = x.
Proof. intros o d x [->|[-> ->]]; reflexivity. Qed.
(** A documented value is returned. *)
Lemma oh_one_complete : forall lib st start opt k x, new_value lib start k opt st x -> oh_one lib st start opt k = Ok x.
Proof.
  intros lib st start opt k x H. destruct H as [s e i m S D E I M NZ|s e i m d1 d2 S D E I M NZ D1 D2 Q|s e i m n S D E I M LE Nn Q|s e eo S E X|s eo S E X]; cbn;
    apply num_of_holds in S.
  - unfold oh_lin_variation. rewrite (end_value_of _ _ _ _ D E), S. cbn [bind]. rewrite (proj2 (iters_of_ok k i m) (conj I M)). cbn [bind].
    destruct (Z.eqb_spec m 0); [contradiction|reflexivity].
  - unfold oh_exp_decay. rewrite (end_value_of _ _ _ _ D E), S. cbn [bind]. rewrite (proj2 (iters_of_ok k i m) (conj I M)). cbn [bind].
    rewrite (dflt_of _ _ _ D1), (dflt_of _ _ _ D2), Q. destruct (Z.eqb_spec m 0); [contradiction|reflexivity].
  - unfold oh_nonlin_mod. rewrite (end_value_of _ _ _ _ D E), S. cbn [bind]. rewrite (proj2 (iters_of_ok k i m) (conj I M)). cbn [bind].
    rewrite (dflt_of _ _ _ Nn), Q. destruct (Z.ltb_spec (m - i) 0); [lia|reflexivity].
  - unfold oh_random. rewrite S, E. cbn [bind of_option]. rewrite X. reflexivity.
  - unfold oh_random. rewrite S, E. cbn [bind of_option]. rewrite X. reflexivity.
Qed.
(** The errors. *)
Lemma oh_one_err : forall lib st start opt k x, dget start opt <> None -> oh_one lib st start opt k = Err x ->
  (x = KeyError /\ key_missing start k opt st) \/ (x = ZeroDivisionError /\ divides_by_zero lib k st) \/
  (x = Unmodelled /\ st = "nonlin_mod" /\ exists i m, ok_iternow k = Some i /\ ok_itermax k = Some m /\ (m < i)%Z).
Proof.
  intros lib st start opt k x P H. unfold key_missing.
  assert (G : forall (A : N -> N -> Z * Z -> res N), In st ["exp_decay"; "lin_variation"; "nonlin_mod"] ->
    (do e <- end_value start opt k; do s <- num_of start opt; do im <- iters_of k; A e s im) = Err x ->
    (x = KeyError /\ key_missing start k opt st) \/ exists e s i m, ok_iternow k = Some i /\ ok_itermax k = Some m /\ A e s (i, m) = Err x).
  { intros A I Q. destruct (end_value start opt k) as [e|y] eqn:E; cbn [bind] in Q.
    - destruct (num_of start opt) as [s|y] eqn:S; cbn [bind] in Q.
      + destruct (iters_of k) as [[i m]|y] eqn:T; cbn [bind] in Q.
        * right. apply iters_of_ok in T. exists e, s, i, m. tauto.
        * injection Q as <-. apply iters_of_err in T. destruct T as [-> T]. left. split; auto. right; right. split; [auto|tauto].
      + apply num_of_err in S. tauto.
    - injection Q as <-. apply end_value_err in E. destruct E as [-> E]. left. split; auto. right; right. split; [auto|tauto]. }
  destruct (strategy_cases st) as [[ -> |[ -> |[ -> | -> ]]]|U].
  - cbn in H. destruct (G (fun e s im => let (i, m) := im in
        if Z.eqb m 0 then Err ZeroDivisionError
        else let den := nadd (nofZ 1) (ndiv (nmul (dflt (ok_d2 k) (nofZ 7)) (nofZ i)) (nofZ m)) in
             if neq den (nofZ 0) then Err ZeroDivisionError
             else Ok (nmul (nsub (nsub s e) (dflt (ok_d1 k) (ndec 2 10))) (l_exp lib (ndiv (nofZ 1) den))))) as [?|(e & s & i & m & I1 & I2 & Q)]; [simpl; auto|exact H|auto|].
    right; left. destruct (Z.eqb_spec m 0).
    + split; [congruence|]. exists i, m. auto 6.
    + cbv zeta in Q. destruct (neq _ _) eqn:Z0 in Q; [|discriminate]. split; [congruence|]. exists i, m. split; auto. split; auto.
      right; left. split; auto. eauto using dflt_spec.
  - cbn in H. destruct (G (fun e s im => let (i, m) := im in
        if Z.eqb m 0 then Err ZeroDivisionError else Ok (nadd e (ndiv (nmul (nsub s e) (nofZ (m - i))) (nofZ m))))) as [?|(e & s & i & m & I1 & I2 & Q)]; [simpl; auto|exact H|auto|].
    right; left. destruct (Z.eqb_spec m 0); [|discriminate]. split; [congruence|]. exists i, m. auto 6.
  - left. cbn in H. unfold oh_random in H. destruct (num_of start opt) as [s|y] eqn:S; cbn [bind] in H.
    + destruct (ok_end k); cbn in H; [discriminate|]. injection H as <-. auto.
    + apply num_of_err in S. tauto.
  - cbn in H. destruct (G (fun e s im => let (i, m) := im in
        if Z.ltb (m - i) 0 then Err Unmodelled
        else let den := l_pow lib (nofZ m) (dflt (ok_n k) (ndec 12 10)) in
             if neq den (nofZ 0) then Err ZeroDivisionError
             else Ok (nadd e (nmul (nsub s e) (ndiv (l_pow lib (nofZ (m - i)) (dflt (ok_n k) (ndec 12 10))) den))))) as [?|(e & s & i & m & I1 & I2 & Q)]; [simpl; auto|exact H|auto|].
    right. destruct (Z.ltb_spec (m - i) 0).
    + right. injection Q as <-. split; auto. split; auto. exists i, m. split; auto. split; auto. lia.
    + left. cbv zeta in Q. destruct (neq _ _) eqn:Z0 in Q; [|discriminate]. split; [congruence|]. exists i, m. split; auto. split; auto.
      right; right. split; auto. eauto using dflt_spec.
  - rewrite oh_one_unknown in H by auto. injection H as <-. left. auto.
Qed.
Lemma oh_one_missing : forall lib st start opt k, dget start opt <> None -> key_missing start k opt st -> oh_one lib st start opt k = Err KeyError.
Proof.
  intros lib st start opt k P [U|[[-> E]|[I M]]].
  - apply oh_one_unknown; auto.
  - cbn. unfold oh_random. destruct (num_of_total start opt P) as [s ->]. rewrite E. reflexivity.
  - assert (G : forall (A : N -> N -> Z * Z -> res N),
      (do e <- end_value start opt k; do s <- num_of start opt; do im <- iters_of k; A e s im) = Err KeyError).
    { intros A. destruct (end_value start opt k) as [e|y] eqn:E; cbn [bind].
      - destruct (num_of_total start opt P) as [s ->]. cbn [bind].
        assert (T : ok_iternow k = None \/ ok_itermax k = None).
        { destruct (end_value_ok _ _ _ _ E) as (E1 & E2 & _). destruct M as [M|[M|[M|[M|M]]]]; auto; try congruence.
          assert (Q : end_value start opt k = Err KeyError) by (apply end_value_err; auto). congruence. }
        assert (Q : iters_of k = Err KeyError) by (apply iters_of_err; auto). rewrite Q. reflexivity.
      - apply end_value_err in E. destruct E as [-> _]. reflexivity. }
    destruct I as [<-|[<-|[<-|[]]]]; cbn; apply G.
Qed.

(** The loop. *)
Lemma oh_loop_ok : forall lib st start k keys ret opts, NoDup keys -> (forall key, In key keys -> In key (dkeys ret)) ->
  oh_loop lib st start k keys ret = Ok opts ->
  dkeys opts = dkeys ret /\
  (forall opt, (~ In opt keys \/ dget st opt = None) -> dget opts opt = dget ret opt) /\
  (forall opt s, In opt keys -> dget st opt = Some s -> exists x, oh_one lib s start opt k = Ok x /\ dget opts opt = Some (PFloat x)).
Proof.
  intros lib st start k. induction keys as [|a keys IH]; intros ret opts ND P H; simpl in H.
  - injection H as <-. split; auto. split; auto. intros opt s [].
  - inversion ND as [|? ? NA ND']; subst. destruct (dget st a) as [s|] eqn:Sa.
    + apply bind_Ok in H. destruct H as (x & X & H).
      assert (DK : dkeys (dset ret a (PFloat x)) = dkeys ret) by (apply dkeys_dset, P; left; auto).
      destruct (IH (dset ret a (PFloat x)) opts ND') as (I1 & I2 & I3); [intros key K; rewrite DK; apply P; right; auto|exact H|].
      split; [congruence|]. split.
      * intros opt O. rewrite I2. { apply dget_dset_other. intros ->. destruct O as [O|O]; [apply O; left; auto|congruence]. }
        destruct O as [O|O]; auto. left. intros Q. apply O. right; auto.
      * intros opt s' [->|I] S'.
        -- exists x. assert (s' = s) by congruence. subst. split; auto. rewrite I2 by auto. apply dget_dset_same.
        -- eauto.
    + destruct (IH ret opts ND') as (I1 & I2 & I3); [intros key K; apply P; right; auto|exact H|].
      split; auto. split.
      * intros opt O. apply I2. destruct O as [O|O]; auto. left. intros Q. apply O. right; auto.
      * intros opt s' [->|I] S'; [congruence|eauto].
Qed.
Lemma oh_loop_err : forall lib st start k keys ret x, oh_loop lib st start k keys ret = Err x ->
  exists opt s, In opt keys /\ dget st opt = Some s /\ oh_one lib s start opt k = Err x.
Proof.
  intros lib st start k. induction keys as [|a keys IH]; intros ret x H; simpl in H; [discriminate|].
  destruct (dget st a) as [s|] eqn:Sa.
  - destruct (oh_one lib s start a k) as [v|y] eqn:E; cbn [bind] in H.
    + destruct (IH _ _ H) as (opt & s' & I & S' & O). exists opt, s'. split; [right|]; auto.
    + injection H as <-. exists a, s. split; [left|]; auto.
  - destruct (IH _ _ H) as (opt & s' & I & S' & O). exists opt, s'. split; [right|]; auto.
Qed.

(** C38 *)
Lemma options_varied : forall lib (st : dict string) (start opts : options N) k, NoDup (dkeys start) -> oh_call lib st start k = Ok opts ->
  dkeys opts = dkeys start /\
  (forall opt, dget st opt = None -> dget opts opt = dget start opt) /\
  (forall opt s, In opt (dkeys start) -> dget st opt = Some s ->
     exists x, dget opts opt = Some (PFloat x) /\ new_value lib start k opt s x).
Proof.
  intros lib st start opts k ND H. unfold oh_call in H. destruct st as [|p st].
  - injection H as <-. split; auto. split; auto. intros opt s _ Q. discriminate.
  - destruct (oh_loop_ok lib (p :: st) start k (dkeys start) start opts ND) as (I1 & I2 & I3); auto.
    split; auto. split.
    + intros opt Q. apply I2. auto.
    + intros opt s I Q. destruct (I3 opt s I Q) as (x & O & D). exists x. split; auto. apply oh_one_ok. auto.
Qed.
Lemma options_key_error : forall lib (st : dict string) (start : options N) k, 
  (forall opt s, In opt (dkeys start) -> dget st opt = Some s -> key_missing start k opt s \/ exists x, new_value lib start k opt s x) ->
  (exists opt s, In opt (dkeys start) /\ dget st opt = Some s /\ key_missing start k opt s) ->
  oh_call lib st start k = Err KeyError.
Proof.
  intros lib st start k A (opt & s & I & D & M). unfold oh_call. destruct st as [|p st]; [discriminate|].
  destruct (oh_loop lib (p :: st) start k (dkeys start) start) as [opts|x] eqn:E.
  - exfalso. assert (G : forall keys ret o', oh_loop lib (p :: st) start k keys ret = Ok o' -> forall opt s, In opt keys -> dget (p :: st) opt = Some s ->
      exists x, oh_one lib s start opt k = Ok x).
    { induction keys as [|a keys IH]; intros ret o' H opt' s' I' D'; [destruct I'|]. cbn [oh_loop] in H.
      destruct (dget (p :: st) a) as [sa|] eqn:Sa.
      - apply bind_Ok in H. destruct H as (v & V & H). destruct I' as [->|I']; [|eauto]. exists v. congruence.
      - destruct I' as [->|I']; [congruence|eauto]. }
    destruct (G _ _ _ E opt s I D) as (x & X). rewrite oh_one_missing in X; auto; [discriminate|]. apply dget_In; auto.
  - destruct (oh_loop_err _ _ _ _ _ _ _ E) as (opt' & s' & I' & D' & O). destruct (A opt' s' I' D') as [M'|(v & V)].
    + rewrite oh_one_missing in O; auto; [|apply dget_In; auto]. injection O as <-. reflexivity.
    + apply oh_one_complete in V. congruence.
Qed.
(** Any error comes from a varied option. *)
Lemma options_error : forall lib (st : dict string) (start : options N) k x, oh_call lib st start k = Err x ->
  exists opt s, In opt (dkeys start) /\ dget st opt = Some s /\
    ((x = KeyError /\ key_missing start k opt s) \/
     (x = ZeroDivisionError /\ divides_by_zero lib k s) \/
     (x = Unmodelled /\ s = "nonlin_mod" /\ exists i m, ok_iternow k = Some i /\ ok_itermax k = Some m /\ (m < i)%Z)).
Proof.
  intros lib st start k x H. unfold oh_call in H. destruct st as [|p st]; [discriminate|].
  destruct (oh_loop_err _ _ _ _ _ _ _ H) as (opt & s & I & D & O). exists opt, s. split; auto. split; auto.
  eapply oh_one_err; eauto. apply dget_In; auto.
Qed.
(** When every varied option has a documented value the call returns. *)
Lemma options_total : forall lib (st : dict string) (start : options N) k,
  (forall opt s, In opt (dkeys start) -> dget st opt = Some s -> exists x, new_value lib start k opt s x) ->
  exists opts, oh_call lib st start k = Ok opts.
Proof.
  intros lib st start k A. destruct (oh_call lib st start k) as [opts|x] eqn:E; [eauto|]. exfalso.
  unfold oh_call in E. destruct st as [|p st]; [discriminate|].
  destruct (oh_loop_err _ _ _ _ _ _ _ E) as (opt & s & I & D & O). destruct (A opt s I D) as (x' & X).
  apply oh_one_complete in X. congruence.
Qed.
(** A missing key makes the call fail. *)
Lemma options_missing : forall lib (st : dict string) (start : options N) k opt s, In opt (dkeys start) -> dget st opt = Some s ->
  key_missing start k opt s -> exists x, oh_call lib st start k = Err x.
Proof.
  intros lib st start k opt s I D M. unfold oh_call. destruct st as [|p st]; [discriminate|].
  destruct (oh_loop lib (p :: st) start k (dkeys start) start) as [opts|x] eqn:E; [|eauto].
  exfalso. assert (G : forall keys ret o', oh_loop lib (p :: st) start k keys ret = Ok o' -> forall opt s, In opt keys -> dget (p :: st) opt = Some s ->
      exists x, oh_one lib s start opt k = Ok x).
    { induction keys as [|a keys IH]; intros ret o' H opt' s' I' D'; [destruct I'|]. cbn [oh_loop] in H.
      destruct (dget (p :: st) a) as [sa|] eqn:Sa.
      - apply bind_Ok in H. destruct H as (v & V & H). destruct I' as [->|I']; [|eauto]. exists v. congruence.
      - destruct I' as [->|I']; [congruence|eauto]. }
  destruct (G _ _ _ E opt s I D) as (x & X). rewrite oh_one_missing in X; auto; [discriminate|]. apply dget_In; auto.
Qed.
End Opts.
