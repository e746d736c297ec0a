(** Specification vocabulary for C21-C24, C64 and C65. *)
From Verif Require Import Base Py Factory_Model.
Open Scope string_scope.
Open Scope list_scope.
Open Scope Z_scope.

(** ** C22: the known names *)
Definition known_families : list string :=
  ["IOT.SMARTPLUGSWITCH"; "IOT.SMARTBULB"; "IOT.IPCAMERA"; "SMART.KASAPLUG"; "SMART.KASASWITCH";
   "SMART.TAPOPLUG"; "SMART.TAPOBULB"; "SMART.TAPOSWITCH"; "SMART.TAPOHUB"; "SMART.KASAHUB";
   "SMART.IPCAMERA"; "SMART.TAPOROBOVAC"; "SMART.TAPOCHIME"; "SMART.TAPODOORBELL"].
Definition known_encryptions : list string := ["KLAP"; "AES"; "XOR"].

(** ** C23: the documented selection *)
Definition legacy (f : family) : bool :=
  match f with IotSmartPlugSwitch | IotSmartBulb | IotIpCamera => true | _ => false end.
Definition camera (f : family) : bool :=
  match f with IotIpCamera | SmartIpCamera | SmartTapoDoorbell => true | _ => false end.
(** Cameras have their own transports whatever the encryption; a vacuum with AES
    uses the TLS transport; legacy devices speak XOR or KLAP without TLS; the
    others speak AES or KLAP, and AES over TLS is the camera protocol (hubs). *)
Definition expected_protocol (f : family) (e : encryption) (tls : bool) : option (protocol * transport) :=
  match f, legacy f, e, tls with
  | SmartIpCamera, _, _, _ | SmartTapoDoorbell, _, _, _ => Some (SmartCamProtocol, SslAesTransport)
  | IotIpCamera, _, _, _ => Some (IotProtocol, LinkieTransportV2)
  | SmartTapoRobovac, _, Aes, _ => Some (SmartProtocol, SslTransport)
  | _, true, Xor, false => Some (IotProtocol, XorTransport)
  | _, true, Klap, false => Some (IotProtocol, KlapTransport)
  | _, true, _, _ => None
  | _, false, Klap, _ => Some (SmartProtocol, KlapTransportV2)
  | _, false, Aes, false => Some (SmartProtocol, AesTransport)
  | _, false, Aes, true => Some (SmartCamProtocol, SslAesTransport)
  | _, false, Xor, _ => None
  end.
(** In strict mode a camera must use the encryption cameras have. *)
Definition strict_ok (f : family) (e : encryption) : bool :=
  match f, e with
  | (SmartIpCamera | SmartTapoDoorbell), Aes => true
  | (SmartIpCamera | SmartTapoDoorbell), _ => false
  | IotIpCamera, Xor => true
  | IotIpCamera, _ => false
  | _, _ => true
  end.
Definition over_http (t : transport) : bool := match t with XorTransport => false | _ => true end.

(** ** C65: protocols and device classes that belong together *)
Definition class_protocol (c : device_class) : protocol :=
  match c with SmartDevice => SmartProtocol | SmartCamDevice => SmartCamProtocol | _ => IotProtocol end.

(** The combinations for which the two belong together: a camera needs TLS, a
    TLS hub the camera encryption, and no other device may combine TLS with AES. *)
Definition fits (f : family) (e : encryption) (tls : bool) : bool :=
  match f with
  | IotSmartPlugSwitch | IotSmartBulb | IotIpCamera | SmartTapoRobovac => true
  | SmartIpCamera | SmartTapoDoorbell => tls
  | SmartTapoHub => negb (tls && match e with Klap => true | _ => false end)
  | _ => negb (tls && match e with Aes => true | _ => false end)
  end.

(** ** C64: a combination worth trying, with the device class it names exactly *)
Definition exact_class (f : family) (tls : bool) : option device_class :=
  match f, tls with
  | IotSmartPlugSwitch, false => Some IotPlug
  | IotSmartBulb, false => Some IotBulb
  | (SmartTapoPlug | SmartTapoBulb | SmartTapoSwitch | SmartKasaPlug | SmartKasaSwitch | SmartTapoHub | SmartKasaHub), false => Some SmartDevice
  | (SmartTapoHub | SmartIpCamera | SmartTapoDoorbell), true => Some SmartCamDevice
  | SmartTapoRobovac, true => Some SmartDevice
  | _, _ => None
  end.

(** ** C24, C64: what was done with a protocol *)
Definition closes (l : list op) : nat := List.length (filter (fun o => match o with OClose => true | _ => false end) l).
Definition creates (l : list op) : nat := List.length (filter (fun o => match o with OCreate _ => true | _ => false end) l).

(** A connection that worked: the protocol was created, a legacy device was asked
    for its system information, and the device was updated. *)
Definition worked (w : world) (d : device) (l : list op) : Prop :=
  w_update w = Ok tt /\
  (d_protocol d = (IotProtocol, XorTransport) /\ (exists info, w_query w = Ok info /\ class_from_sys_info info = Ok (d_class d)) /\
     l = [OCreate (d_protocol d); OQuery; OUpdate] \/
   d_protocol d <> (IotProtocol, XorTransport) /\ l = [OCreate (d_protocol d); OUpdate]).
