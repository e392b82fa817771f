From Coq Require Import String Reals ZArith List Bool Lia Lra.
From Verif Require Import Base FundModel EopModel EopSpec EopProofs EopProps PoleModel PoleSpec PoleProps SiteModel ExEopModel ExEopSpec ExEopProofs ExPoleModel ExPoleSpec.
Import ListNotations.
Open Scope R_scope.

Section Run.
  Variable leap : epoch -> R.
  Variable years : epoch -> R.
  Variable lvlh : site -> vec * vec * vec.
  Variables Re GM Omega G ge : R.
  Hypothesis Hge : ge <> 0.
  Hypothesis HGM : GM <> 0.
  Notation sitesE := (sites years lvlh Re GM Omega G ge).
  Notation loopE := (ExPoleModel.loop leap years lvlh Re GM Omega G ge).
  Notation lines := (lines_at years lvlh Re GM Omega G ge).

  Lemma sites_ok t x y sta : forall cf name, (length sta <= length cf)%nat -> (length sta <= length name)%nat -> exists o, sitesE t x y sta cf name = Ok o /\ lines t x y sta cf name o.
  Proof.
    induction sta as [|s sta IH]; intros cf name A B.
    - exists []. split; [reflexivity|]. split; [reflexivity|]. intros [|j] l H; discriminate.
    - destruct cf as [|c cf]; [cbn in A; lia|]. destruct name as [|n name]; [cbn in B; lia|]. destruct (IH cf name ltac:(cbn in A; lia) ltac:(cbn in B; lia)) as (o & E & (L & K)).
      eexists. split; [cbn [sites]; rewrite E; reflexivity|]. split; [cbn [length]; rewrite L; reflexivity|]. intros [|j] l H; cbn [nth_error] in H |- *; [|exact (K j l H)].
      injection H as <-. exists s, c, n. refine (conj eq_refl (conj eq_refl (conj eq_refl _))). rewrite c31_displacement, c31_ocean_displacement by assumption. reflexivity.
  Qed.

  Lemma cut_of tab x l t : sorted mjd tab -> tab = x :: l -> mjd (rt epoch x) <= mjd t -> exists b p a, cut mjd tab t (b ++ [p]) a.
  Proof.
    intros S E H. destruct (cut_exists mjd tab t S) as (b & a & C). destruct b as [|b0 b] using rev_ind; [|clear IHb; exists b, b0, a; exact C].
    destruct C as (E' & _ & A). cbn in E'. subst a. rewrite E in A. inversion A; subst. lra.
  Qed.

  (** one pass *)
  Definition pass_ok (tab : list (rec epoch)) sta cf (t : epoch) (o : list oline) : Prop := exists x y, pole_at leap tab t x y /\ lines t x y sta cf names o.
  Lemma pass_in s t e sta cf b p q a : sorted mjd (mvec epoch s) -> ready s -> (length sta <= length cf)%nat -> (length sta <= length names)%nat -> cut mjd (mvec epoch s) t (b ++ [p]) (q :: a) ->
    exists st r s' o, EopModel.interpolate epoch earlier mjd leap s t e 5 = Ok (st, r, s') /\ out_of_bounds st = false /\ sitesE t (EopModel.xp epoch r) (EopModel.yp epoch r) sta cf names = Ok o /\
      pass_ok (mvec epoch s) sta cf t o /\ mvec epoch s' = mvec epoch s /\ ready s'.
  Proof.
    intros S Rd A B C. destruct (c14_inside epoch earlier mjd leap earlier_ok s t e 5 (b ++ [p]) (q :: a) S Rd ltac:(lia) C ltac:(destruct b; discriminate) ltac:(discriminate)) as (r & s1 & H). cbv zeta in H. destruct H as (E1 & I1 & _ & _ & _ & _ & M1 & R1).
    destruct (sites_ok t (EopModel.xp epoch r) (EopModel.yp epoch r) sta cf names A B) as (o & E2 & L). eexists _, r, s1, o. split; [exact E1|].
    split; [destruct (Nat.eqb _ 1); [reflexivity|]; destruct (_ =? _)%Z; reflexivity|]. split; [exact E2|]. split; [|split; [exact M1|exact R1]].
    exists (EopModel.xp epoch r), (EopModel.yp epoch r). split; [|exact L]. destruct I1 as (Ix & Iy & _). exists (b ++ [p]), (q :: a). refine (conj C (conj _ (conj _ (conj Ix Iy)))); [destruct b|]; discriminate.
  Qed.
  Lemma pass_out s t e b : sorted mjd (mvec epoch s) -> ready s -> cut mjd (mvec epoch s) t b [] -> b <> [] -> exists r s', EopModel.interpolate epoch earlier mjd leap s t e 5 = Ok (Later, r, s').
  Proof. intros S Rd C N. destruct (c14_after epoch earlier mjd leap earlier_ok s t e 5 b S Rd ltac:(lia) C N) as (r & s' & E & _). exists r, s'. exact E. Qed.
  Lemma pass_early s t e a : sorted mjd (mvec epoch s) -> ready s -> cut mjd (mvec epoch s) t [] a -> a <> [] -> exists r s', EopModel.interpolate epoch earlier mjd leap s t e 5 = Ok (Prior, r, s').
  Proof. intros S Rd C N. destruct (c14_before epoch earlier mjd leap earlier_ok s t e 5 a S Rd ltac:(lia) C N) as (r & s' & E & _). exists r, s'. exact E. Qed.

  (** [n] passes to the earlier of the end asked for and the last record *)
  Lemma loop_run tab x l0 y fin e sta cf : sorted mjd tab -> tab = x :: l0 -> nth_error tab (length tab - 1) = Some y -> (length sta <= length cf)%nat -> (length sta <= length names)%nat ->
    forall n s t, mvec epoch s = tab -> ready s -> mjd (rt epoch x) <= mjd t -> epochs_between (mjd t) (Rmin (mjd fin) (mjd (rt epoch y))) n ->
    exists outs code, (forall fuel, (n < fuel)%nat -> loopE fuel s t fin e sta cf = Ok (Exit code, concat outs)) /\ length outs = n /\
      (forall k o, nth_error outs k = Some o -> exists tk, mjd tk = mjd t + INR k * half_minute /\ pass_ok tab sta cf tk o) /\
      (code = 0 \/ code = 1)%Z /\ (code = 0%Z <-> mjd fin <= mjd t + INR n * half_minute).
  Proof.
    intros S E N A B. induction n as [|n IH]; intros s t M Rd X (Hi & Lo).
    - cbn [INR] in Hi. rewrite Rmult_0_l, Rplus_0_r in Hi. destruct (Rlt_dec (mjd t) (mjd fin)) as [F|F].
      + exists [], 1%Z. assert (Y : mjd (rt epoch y) <= mjd t). { unfold Rmin in Hi. destruct (Rle_dec (mjd fin) (mjd (rt epoch y))); lra. }
        destruct (cut_of tab x l0 t S E X) as (b & p & a & C). destruct a as [|q a].
        2: { exfalso. destruct C as (E' & _ & Aa). inversion Aa as [|? ? Hq Hr]; subst. assert (In y (q :: a)).
             { rewrite E' in N. rewrite nth_error_app2 in N by (rewrite !app_length; cbn [length]; lia). exact (nth_error_In _ _ N). }
             rewrite Forall_forall in Aa. specialize (Aa y H). cbn beta in Aa. lra. }
        destruct (pass_out s t e (b ++ [p]) ltac:(rewrite M; exact S) Rd ltac:(rewrite M; exact C) ltac:(destruct b; discriminate)) as (r & s' & EI).
        split. { intros fuel Hf. destruct fuel as [|fuel]; [lia|]. cbn [ExPoleModel.loop]. rewrite (proj2 (earlier_ok t fin) F), EI. reflexivity. }
        split; [reflexivity|]. split; [intros [|k] o H; discriminate|]. split; [right; reflexivity|]. cbn [INR]. split; [discriminate|intros; lra].
      + exists [], 0%Z. split. { intros fuel Hf. destruct fuel as [|fuel]; [lia|]. cbn [ExPoleModel.loop]. assert (EF : earlier t fin = false) by (unfold earlier; destruct (Rlt_dec (mjd t) (mjd fin)); [contradiction|reflexivity]). rewrite EF. reflexivity. }
        split; [reflexivity|]. split; [intros [|k] o H; discriminate|]. split; [left; reflexivity|]. cbn [INR]. split; [intros _; lra|reflexivity].
    - destruct Lo as [Lo|Lo]; [discriminate|]. rewrite S_INR in Hi, Lo. unfold half_minute in Hi, Lo. pose proof (pos_INR n) as P.
      assert (ML : mjd t < Rmin (mjd fin) (mjd (rt epoch y))) by nra. pose proof (Rmin_l (mjd fin) (mjd (rt epoch y))). pose proof (Rmin_r (mjd fin) (mjd (rt epoch y))).
      destruct (cut_in tab x l0 y t S E N ltac:(lra)) as (b & p & q & a & C).
      destruct (pass_in s t e sta cf b p q a ltac:(rewrite M; exact S) Rd A B ltac:(rewrite M; exact C)) as (st & r & s' & o & E1 & E2 & E3 & PO & M' & R'). rewrite M in PO.
      assert (T30 : mjd (add_seconds t 30) = mjd t + half_minute) by (rewrite add_seconds_mjd; reflexivity).
      destruct (IH s' (add_seconds t 30)) as (outs & code & O1 & O2 & O3 & O4 & O5).
      { rewrite M'. exact M. } { exact R'. } { rewrite T30. unfold half_minute. lra. } { rewrite T30. unfold epochs_between, half_minute. split; [lra|]. destruct n; [left; reflexivity|right]. lra. }
      exists (o :: outs), code. split. { intros fuel Hf. destruct fuel as [|fuel]; [lia|]. cbn [ExPoleModel.loop]. rewrite (proj2 (earlier_ok t fin)) by lra. rewrite E1. cbn [bind]. rewrite E2, E3. cbn [bind]. rewrite O1 by lia. reflexivity. }
      split; [cbn [length]; rewrite O2; reflexivity|]. split; [|split; [exact O4|rewrite O5, T30, S_INR; split; intros; lra]].
      intros [|k] o' H1; cbn [nth_error] in H1; [injection H1 as <-; exists t; split; [cbn; lra|exact PO]|]. destruct (O3 k o' H1) as (tk & Ek & Lk). exists tk. split; [|exact Lk]. rewrite Ek, T30, S_INR. lra.
  Qed.
End Run.
