(** Lemmas: dispatch of get_sky_diffuse / get_total_irradiance / get_extra_radiation. *)
From Verif Require Import Base.Fl Base.FlFacts Base.Py Spec.Geometry Model.IrradTables Model.Atmosphere
  Model.Irradiance Proofs.IrradGeom Proofs.IrradSky.
Open Scope R_scope.

Definition sky_model_names : list string :=
  ["isotropic"; "klucher"; "haydavies"; "reindl"; "king"; "perez"; "perez-driesse"]%string.

Ltac eqbs :=
  repeat match goal with
  | |- context [String.eqb ?a ?b] => destruct (String.eqb_spec a b)
  end.

Lemma get_sky_diffuse_case f t a z s dni ghi dhi dx am m m' mp rc :
  lower m = lower m' ->
  get_sky_diffuse f t a z s dni ghi dhi dx am m mp rc = get_sky_diffuse f t a z s dni ghi dhi dx am m' mp rc.
Proof. intros H. unfold get_sky_diffuse. rewrite H. reflexivity. Qed.

Lemma get_sky_diffuse_dispatch f t a z s dni ghi dhi x am mp rc :
  let call m dx rc := get_sky_diffuse f t a z s dni ghi dhi dx am m mp rc in
  (forall dx, call "isotropic"%string dx rc = Ok (isotropic t dhi)) /\
  (forall dx, call "klucher"%string dx false = Ok (klucher t a dhi ghi z s)) /\
  (forall dx, call "king"%string dx false = Ok (king t dhi ghi z)) /\
  call "haydavies"%string (Some x) rc = Ok (haydavies t a dhi dni x z s None) /\
  call "reindl"%string (Some x) rc = Ok (reindl t a dhi dni ghi x z s) /\
  (forall am', am = Some am' -> call "perez"%string (Some x) rc = perez mp t a dhi dni x z s am') /\
  (am = None -> forall am', get_relative_airmass z "kastenyoung1989"%string = Ok am' ->
     call "perez"%string (Some x) rc = perez mp t a dhi dni x z s am') /\
  call "perez-driesse"%string (Some x) rc = Ok (perez_driesse f t a dhi dni x z s am).
Proof.
  cbv zeta. repeat split; intros; subst; unfold get_sky_diffuse; simpl; try (destruct rc; reflexivity).
  - destruct dx, rc; reflexivity.
  - destruct dx; reflexivity.
  - destruct dx; reflexivity.
  - unfold get_relative_airmass in *. simpl in *.
    match goal with H : Ok _ = Ok _ |- _ => injection H as <- end.
    destruct rc; reflexivity.
Qed.

Lemma get_sky_diffuse_error f t a z s dni ghi dhi dx am m mp rc e :
  get_sky_diffuse f t a z s dni ghi dhi dx am m mp rc = Err e <->
  (e = ValueError /\
     ((rc = true /\ In (lower m) ["klucher"; "king"]%string) \/
      (dx = None /\ In (lower m) ["haydavies"; "reindl"; "perez"; "perez-driesse"]%string) \/
      ~ In (lower m) sky_model_names)) \/
  (e = KeyError /\ lower m = "perez"%string /\ dx <> None /\ ~ In mp (map fst perez_coeffdict)).
Proof.
  unfold get_sky_diffuse, sky_model_names.
  set (mm := lower m).
  destruct (String.eqb_spec mm "isotropic") as [->|H1].
  { destruct dx; destruct rc; simpl;
    (split; [discriminate|intros [[_ H]|[_ [H _]]]; [intuition discriminate|discriminate]]). }
  destruct (String.eqb_spec mm "klucher") as [->|H2].
  { destruct dx; destruct rc; simpl; split; try discriminate; intuition (try discriminate; congruence). }
  destruct (String.eqb_spec mm "king") as [->|H5].
  { destruct dx; destruct rc; simpl; split; try discriminate; intuition (try discriminate; congruence). }
  destruct (String.eqb_spec mm "haydavies") as [->|H3].
  { destruct dx; destruct rc; simpl; split; try discriminate; intuition (try discriminate; congruence). }
  destruct (String.eqb_spec mm "reindl") as [->|H4].
  { destruct dx; destruct rc; simpl; split; try discriminate; intuition (try discriminate; congruence). }
  destruct (String.eqb_spec mm "perez-driesse") as [->|H7].
  { destruct dx; destruct rc; simpl; split; try discriminate; intuition (try discriminate; congruence). }
  destruct (String.eqb_spec mm "perez") as [->|H6].
  { assert (Hp : forall x amv, (perez mp t a dhi dni x z s amv = Err e) <->
                         (e = KeyError /\ ~ In mp (map fst perez_coeffdict))).
    { intros x amv. unfold perez, getitem, bind.
      destruct (lookup mp perez_coeffdict) eqn:Hl.
      - split; [discriminate|]. intros [_ H]. apply lookup_None in H. congruence.
      - apply lookup_None in Hl. split; [intros [= <-]; auto|intros [-> _]; reflexivity]. }
    destruct dx as [x|].
    - replace (rc && mem "perez" ["klucher"%string; "king"%string]) with false by (destruct rc; reflexivity).
      cbn beta iota. simpl (String.eqb "perez" _). cbn beta iota. rewrite Hp. simpl.
      split.
      + intros [-> H]. right. repeat split; auto. discriminate.
      + intros [[_ H]|H]; [intuition discriminate|tauto].
    - replace (rc && mem "perez" ["klucher"%string; "king"%string]) with false by (destruct rc; reflexivity).
      simpl. split; [intros [= <-]; left; split; [reflexivity|]; right; left; auto|].
      intros [[-> _]|[_ [_ [H _]]]]; [reflexivity|congruence]. }
  assert (Hm1 : mem mm ["klucher"%string; "king"%string] = false).
  { simpl. destruct (String.eqb_spec mm "klucher"); [contradiction|].
    destruct (String.eqb_spec mm "king"); [contradiction|]. reflexivity. }
  assert (Hm2 : mem mm ["haydavies"%string; "reindl"%string; "perez"%string; "perez-driesse"%string] = false).
  { simpl. destruct (String.eqb_spec mm "haydavies"); [contradiction|].
    destruct (String.eqb_spec mm "reindl"); [contradiction|].
    destruct (String.eqb_spec mm "perez"); [contradiction|].
    destruct (String.eqb_spec mm "perez-driesse"); [contradiction|]. reflexivity. }
  rewrite Hm1, Hm2, andb_false_r.
  assert (Hnot : ~ In mm sky_model_names).
  { unfold sky_model_names. simpl. intuition congruence. }
  unfold sky_model_names in Hnot.
  destruct dx; (split; [intros [= <-]; left; auto|intros [[-> _]|[_ [H _]]]; [reflexivity|contradiction]]).
Qed.

Lemma get_ground_diffuse_spec t ghi alb st :
  get_ground_diffuse t ghi alb None = Ok (ground_diffuse t ghi alb) /\
  (forall a, In (st, a) SURFACE_ALBEDOS -> get_ground_diffuse t ghi alb (Some st) = Ok (ground_diffuse t ghi a)) /\
  (~ In st (map fst SURFACE_ALBEDOS) -> get_ground_diffuse t ghi alb (Some st) = Err KeyError).
Proof.
  split; [reflexivity|]. split.
  - intros a Ha. unfold get_ground_diffuse.
    assert (Hl : getitem SURFACE_ALBEDOS st = Ok a).
    { unfold SURFACE_ALBEDOS in *. simpl in Ha.
      repeat (destruct Ha as [Ha|Ha]; [inversion Ha; reflexivity|]). contradiction. }
    rewrite Hl. reflexivity.
  - intros H. unfold get_ground_diffuse, getitem. apply lookup_None in H. rewrite H. reflexivity.
Qed.
