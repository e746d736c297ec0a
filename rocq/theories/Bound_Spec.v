(** What has_feature should tell: whether an attribute can be used with this device. *)
From Verif Require Import Base Py Bound_Model.
Open Scope string_scope.
Open Scope list_scope.

(** An attribute can be used if reading or calling it does what it says: the part of a light it is
    about is there (otherwise it raises "not supported": smart/modules/light.py:43-115,
    iot/modules/light.py:118-160, iotbulb.py:464-466, iotdimmer.py:99-101), the sensor or control of a
    thermostat is there (thermostat.py:46-61), the battery is reported (batterysensor.py:58-75), the
    camera has a lens mask to switch (smartcam/modules/camera.py:58-66).  The others always can. *)
Definition works (k : kind) (x : facts) (a : string) : bool :=
  match k with
  | SmartLight =>
      if smem a ["hsv"; "set_hsv"] then x_has x "Color"
      else if smem a ["color_temp"; "set_color_temp"] then x_has x "ColorTemperature"
      else x_has x "Brightness"
  | IotLight =>
      if smem a ["hsv"; "set_hsv"] then x_color x
      else if smem a ["color_temp"; "set_color_temp"] then x_temp x
      else x_dim x
  | Thermostat => if String.eqb a "temperature" then x_has x "TemperatureSensor" else x_has x "TemperatureControl"
  | Battery => if String.eqb a "battery" then x_says x "battery_percentage" else x_says x "at_low_battery" || x_says x "is_low"
  | Camera => x_has x "LensMask"
  | _ => true
  end.
(** The attribute is documented as depending on the device: its return type carries a mark *)
Definition marked (k : kind) (a : string) : Prop := exists n, dget a (attrs_of k) = Some (Some n).
(** A feature goes through an attribute: it reads it, or sets it *)
Definition through (f : feat) (a : string) : Prop := f_get f = Named a \/ f_set f = Named a.
Definition known (r : option (string * feat)) : bool := match r with Some _ => true | None => false end.
