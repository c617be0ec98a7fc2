From Verif Require Import Util Spec_Zone.

Lemma zone_table_eq cls ty : ty < 256 ->
  getZoneIndex cls ty = match zonePosition cls ty with Some p => p | None => 255 end.
Proof.
  intros H. unfold zonePosition, zoneTable, getZoneIndex.
  cbv [CLASS_ALARM CLASS_SECURITY CLASS_AOL CLASS_MEASUREZONE CLASS_SETVALUEZONE CLASS_WEATHER
    CLASS_WEATHER_FORECAST CLASS_DIAGNOSTIC CLASS_ERROR CLASS_INFORMATION CLASS_CONTROL CLASS_PHONE
    CLASS_DISPLAY CLASS_IR IT_STREAM_DATA_WITH_ZONE IT_CONFIRM IT_STREAM_DATA CT_DEACTIVATE CT_DIM_LAMPS
    CT_STREAM_DATA PH_ANSWER DT_SET_DISPLAY_BUFFER_PARAM RT_VSCP_ABSTRACT RT_MAPITO].
  cbn [zoneLookup].
  assert (Hcls : In cls [1;2;20;30;50;65;85;90;95;100;102;110;506;508] \/
                 ~ In cls [1;2;20;30;50;65;85;90;95;100;102;110;506;508])
    by (destruct (in_dec N.eq_dec cls [1;2;20;30;50;65;85;90;95;100;102;110;506;508]); auto).
  destruct Hcls as [Hin | Hout].
  - cbn [In] in Hin.
    repeat match type of Hin with
    | _ \/ _ => destruct Hin as [<- | Hin]
    | False => destruct Hin
    end; cbn [N.eqb Pos.eqb orb andb];
    destruct (N.ltb_spec 0 ty); cbn [andb];
    repeat match goal with
    | |- context [if ?b then _ else _] => destruct b eqn:?
    end; try reflexivity; lia.
  - cbn [In] in Hout.
    repeat match goal with
    | |- context [cls =? ?c] => replace (cls =? c) with false by lia
    end. cbn [orb andb]. destruct (0 <? ty); reflexivity.
Qed.

Lemma zonePosition_range cls ty p : zonePosition cls ty = Some p -> p = 0 \/ p = 1.
Proof.
  unfold zonePosition, zoneTable. cbn [zoneLookup].
  repeat match goal with |- context [if ?b then _ else _] => destruct b end;
  intros H; try discriminate; injection H as <-; auto.
Qed.
Lemma zonePosition_general cls : zonePosition cls 0 = None.
Proof.
  unfold zonePosition, zoneTable. cbn [zoneLookup].
  repeat match goal with |- context [if ?b && (?x <=? 0) && _ then _ else _] =>
    replace (b && (x <=? 0)) with false by (destruct b; reflexivity); cbn [andb] end.
  reflexivity.
Qed.
