From Coq Require Import QArith Lia Decimal DecimalString DecimalZ DecimalPos.
From Verif Require Import Base Base_Lemmas Py Crypto_Model Crypto_Proofs Effect_Model Effect_Props
  Iot_Model Small_Model Setup_Model.
Open Scope string_scope.
Open Scope list_scope.
Open Scope Z_scope.

Lemma decoded_text n : is_text n -> decoded (JStr (b64 n)) = Ok n.
Proof.
  intros (cs & Hc & E). unfold decoded, b64. rewrite list_ascii_of_string_of_list_ascii.
  rewrite (encode_ascii_len (length (list_ascii_of_string n))) by lia. cbn [negb].
  rewrite a2b_encode, E, utf8_text by exact Hc.
  rewrite <- E, string_of_list_ascii_of_string. reflexivity.
Qed.
Lemma decoded_bytes n : utf8 (list_ascii_of_string n) = false -> decoded (JStr (b64 n)) = Err PyUnicode.
Proof.
  intros H. unfold decoded, b64. rewrite list_ascii_of_string_of_list_ascii.
  rewrite (encode_ascii_len (length (list_ascii_of_string n))) by lia. cbn [negb].
  rewrite a2b_encode, H. reflexivity.
Qed.
Lemma truthy_b64 n : n <> "" -> truthy (JStr (b64 n)) = true.
Proof. intros H. cbn. pose proof (b64_nonempty n H). now destruct (b64 n). Qed.

(** C104: the name given is the name the device shows, once it keeps what it was sent. *)
Theorem smart_name_kept_partial reply a log : is_text a -> a <> "" ->
  exists s, set_alias reply a log =
      (log ++ [mkQuery (JObj [("set_device_info", JObj [("nickname", JStr s)])]) 3],
       reply (mkQuery (JObj [("set_device_info", JObj [("nickname", JStr s)])]) 3))
    /\ forall info, dget "nickname" info = Some (JStr s) -> alias info = Ok (Some a).
Proof.
  intros Ht Hn. exists (b64 a). split; [reflexivity|]. intros info Hi. unfold alias. rewrite Hi.
  rewrite (truthy_b64 a Hn), (decoded_text a Ht). reflexivity.
Qed.
Print Assumptions smart_name_kept_partial.

(** The empty name is shown as no name at all. *)
Theorem smart_empty_name_refuted reply :
  exists s, snd (set_alias reply "" []) =
      reply (mkQuery (JObj [("set_device_info", JObj [("nickname", JStr s)])]) 3)
    /\ alias [("nickname", JStr s)] = Ok None.
Proof. exists "". split; reflexivity. Qed.
Print Assumptions smart_empty_name_refuted.

Theorem iot_name_kept reply a log sys_info :
  fst (iot_set_alias reply a log) =
    log ++ [JObj [("system", JObj [("set_dev_alias", JObj [("alias", JStr a)])])]]
  /\ (dget "alias" sys_info = Some (JStr a) -> iot_alias (Some sys_info) = Some (JStr a)).
Proof.
  split; [reflexivity|]. intros H. cbn. destruct sys_info; [discriminate|exact H].
Qed.
Print Assumptions iot_name_kept.

(** C104: the network the device is in. *)
Theorem smart_ssid_shown info :
  (forall n, is_text n -> n <> "" -> dget "ssid" info = Some (JStr (b64 n)) -> ssid info = Ok n) /\
  (dget "ssid" info = None \/ dget "ssid" info = Some (JStr "") \/ dget "ssid" info = Some JNull -> ssid info = Ok "No SSID").
Proof.
  split.
  - intros n Ht Hn Hi. unfold ssid. now rewrite Hi, (truthy_b64 n Hn), (decoded_text n Ht).
  - intros [Hi|[Hi|Hi]]; unfold ssid; now rewrite Hi.
Qed.
Print Assumptions smart_ssid_shown.

(** A network as the device knows it, and an entry of its list that describes it: the name in
    base64, whatever else there is. *)
Record seen := mkSeen { s_name : string; s_key : json; s_cipher : json; s_bssid : json;
                        s_channel : json; s_level : json }.
Definition describes (v : json) (x : seen) : Prop :=
  exists d, v = JObj d /\ dget "ssid" d = Some (JStr (b64 (s_name x))) /\
    dget "key_type" d = Some (s_key x) /\ dget "cipher_type" d = Some (s_cipher x) /\
    dget "bssid" d = Some (s_bssid x) /\ dget "channel" d = Some (s_channel x) /\
    dget "signal_level" d = Some (s_level x).
Definition shown_as (x : seen) (n : network) : Prop :=
  n_ssid n = JStr (s_name x) /\ n_key_type n = s_key x /\ n_cipher_type n = s_cipher x /\
  n_bssid n = s_bssid x /\ n_channel n = s_channel x /\ n_signal_level n = s_level x.
Definition scan_query : query :=
  mkQuery (JObj [("get_wireless_scan_info", JObj [("start_index", JInt 0)])]) 3.
Definition scan_reply (resp : json) (l : list json) : Prop :=
  exists d r, resp = JObj d /\ dget "get_wireless_scan_info" d = Some (JObj r) /\
    dget "ap_list" r = Some (JArr l).

Lemma net_describes v x : is_text (s_name x) -> describes v x ->
  exists n, net_for_scan_info v = Ok n /\ shown_as x n.
Proof.
  intros Ht (d & -> & H1 & H2 & H3 & H4 & H5 & H6).
  eexists. split.
  - unfold net_for_scan_info. cbn [jitem]. unfold dindex.
    rewrite H1. cbn [bind]. rewrite (decoded_text _ Ht). cbn [bind].
    rewrite H3, H2, H5, H6, H4. cbn [bind]. reflexivity.
  - repeat split; reflexivity.
Qed.

(** C104: a scan lists exactly the networks the device reports, in its order. *)
Theorem smart_scan_partial reply resp l xs log :
  reply scan_query = Ok resp -> scan_reply resp l ->
  Forall2 describes l xs -> Forall (fun x => is_text (s_name x)) xs ->
  exists ns, wifi_scan reply log = (log ++ [scan_query], Ok ns) /\ Forall2 shown_as xs ns.
Proof.
  intros Hr (d & r & -> & Hd & Ha) Hl Ht.
  assert (HN : exists ns, nets l = Ok ns /\ Forall2 shown_as xs ns).
  { clear - Hl Ht. induction Hl as [|v x l xs Hv Hl IH].
    - exists []. split; [reflexivity|constructor].
    - inversion Ht as [|? ? Hx Hxs]; subst. destruct (IH Hxs) as (ns & E & F).
      destruct (net_describes v x Hx Hv) as (n & En & Fn). exists (n :: ns).
      split; [cbn [nets]; now rewrite En; cbn [bind]; rewrite E|now constructor]. }
  destruct HN as (ns & E & F). exists ns. split; [|exact F].
  unfold wifi_scan, mbind, ask. fold scan_query. rewrite Hr. unfold mlift. cbn [jitem].
  unfold dindex. rewrite Hd. cbn [bind jitem]. unfold dindex. rewrite Ha. cbn [bind jiter].
  now rewrite E.
Qed.
Print Assumptions smart_scan_partial.

(** One network in range whose name is not UTF-8 (names of networks are arbitrary bytes) makes
    the whole scan fail. *)
Theorem smart_scan_refuted reply resp l xs log :
  reply scan_query = Ok resp -> scan_reply resp l -> Forall2 describes l xs ->
  Exists (fun x => utf8 (list_ascii_of_string (s_name x)) = false) xs ->
  Forall (fun x => is_text (s_name x) \/ utf8 (list_ascii_of_string (s_name x)) = false) xs ->
  snd (wifi_scan reply log) = Err PyUnicode.
Proof.
  intros Hr (d & r & -> & Hd & Ha) Hl Hx Hall.
  assert (HN : nets l = Err PyUnicode).
  { clear - Hl Hx Hall. induction Hl as [|v x l xs Hv Hl IH]; [inversion Hx|].
    inversion Hall as [|? ? [Ht|Hb] Hr]; subst.
    - destruct (net_describes v x Ht Hv) as (n & En & _). cbn [nets]. rewrite En. cbn [bind].
      inversion Hx as [? ? Hb|? ? Hx']; subst.
      + destruct Ht as (cs & Hc & E). rewrite E, utf8_text in Hb by exact Hc. discriminate.
      + now rewrite IH.
    - destruct Hv as (dd & -> & H1 & _). cbn [nets]. unfold net_for_scan_info. cbn [jitem].
      unfold dindex. rewrite H1. cbn [bind]. now rewrite (decoded_bytes _ Hb). }
  unfold wifi_scan, mbind, ask. fold scan_query. rewrite Hr. unfold mlift. cbn [jitem].
  unfold dindex. rewrite Hd. cbn [bind jitem]. unfold dindex. rewrite Ha. cbn [bind jiter snd].
  exact HN.
Qed.
Print Assumptions smart_scan_refuted.

Definition row (name : string) : json :=
  JObj [("bssid", JStr "aa"); ("channel", JInt 1); ("cipher_type", JInt 2); ("key_type", JStr "wpa2_psk");
        ("signal_level", JInt 3); ("ssid", JStr (b64 name))].
Example scan_two :
  snd (wifi_scan (fun _ => Ok (JObj [("get_wireless_scan_info",
        JObj [("ap_list", JArr [row "home"; row "guest"])])])) []) =
  Ok [mkNet (JStr "home") (JStr "wpa2_psk") (JInt 2) (JStr "aa") (JInt 1) JNull (JInt 3);
      mkNet (JStr "guest") (JStr "wpa2_psk") (JInt 2) (JStr "aa") (JInt 1) JNull (JInt 3)].
Proof. reflexivity. Qed.
Example scan_latin1 :
  snd (wifi_scan (fun _ => Ok (JObj [("get_wireless_scan_info",
        JObj [("ap_list", JArr [row "home"; row (String (ascii_of_N 233) "t")])])])) []) = Err PyUnicode.
Proof. reflexivity. Qed.

(** C104: new credentials are sent in a form that gives back exactly what was entered. *)
Definition carries (v : json) (text : string) : Prop :=
  exists s, v = JStr s /\ (is_text text -> decoded (JStr s) = Ok text) /\
    forall other, JStr (b64 other) = v -> other = text.
Lemma b64_inj a b : b64 a = b64 b -> a = b.
Proof.
  unfold b64. intros H. apply (f_equal list_ascii_of_string) in H.
  rewrite !list_ascii_of_string_of_list_ascii in H.
  apply (f_equal b64decode) in H. rewrite !b64_round_trip in H. injection H as H.
  apply (f_equal string_of_list_ascii) in H. now rewrite !string_of_list_ascii_of_string in H.
Qed.
Lemma carries_b64 t : carries (JStr (b64 t)) t.
Proof.
  exists (b64 t). split; [reflexivity|]. split; [intros; now apply decoded_text|].
  intros o [= E]. now apply b64_inj.
Qed.
Theorem credentials_sent reply state time username password log :
  dget "get_device_time" state = Some time ->
  exists u p, carries u username /\ carries p password /\
    let q := mkQuery (JObj [("set_qs_info",
      JObj [("account", JObj [("username", u); ("password", p)]); ("time", time)])]) 3 in
    update_credentials reply state username password log = (log ++ [q], reply q).
Proof.
  intros Ht. exists (JStr (b64 username)), (JStr (b64 password)).
  split; [apply carries_b64|]. split; [apply carries_b64|].
  cbv zeta. unfold update_credentials, mbind, mlift, dindex. rewrite Ht. reflexivity.
Qed.
Print Assumptions credentials_sent.

(** C105: joining a network.  Without credentials nothing is sent; otherwise exactly one request,
    which is not repeated, carries the account, the network and the device's clock. *)
Theorem smart_join_partial reply credentials state name password keytype log :
  match credentials with
  | None => wifi_join reply credentials state name password keytype log = (log, Err (KAuth None))
  | Some (u, p) =>
      forall time, dget "get_device_time" state = Some time ->
      exists ju jp jn jw, carries ju u /\ carries jp p /\ carries jn name /\ carries jw password /\
        let q := mkQuery (JObj [("set_qs_info", JObj
          [("account", JObj [("username", ju); ("password", jp)]);
           ("wireless", JObj [("key_type", JStr keytype); ("password", jw); ("ssid", jn)]);
           ("time", time)])]) 0 in
        wifi_join reply credentials state name password keytype log =
          (log ++ [q],
           match reply q with
           | Ok v => Ok v
           | Err (KTimeout | KConn | KKasa | KUnsupported) => Ok (JObj [])
           | Err e => Err e
           end)
  end.
Proof.
  destruct credentials as [[u p]|]; [|reflexivity]. intros time Ht.
  exists (JStr (b64 u)), (JStr (b64 p)), (JStr (b64 name)), (JStr (b64 password)).
  split; [apply carries_b64|]. split; [apply carries_b64|]. split; [apply carries_b64|].
  split; [apply carries_b64|]. cbv zeta.
  unfold wifi_join, mbind, mlift, dindex. rewrite Ht. unfold ask, account, encoded.
  unfold b64. destruct (reply _) as [v|e]; [reflexivity|]. destruct e; reflexivity.
Qed.
Print Assumptions smart_join_partial.

(** A device that was not updated, or does not report its time, cannot be told to join. *)
Theorem smart_join_refuted reply u p name password keytype log :
  wifi_join reply (Some (u, p)) [] name password keytype log = (log, Err PyKeyError) /\
  update_credentials reply [] u p log = (log, Err PyKeyError).
Proof. split; reflexivity. Qed.
Print Assumptions smart_join_refuted.

(** What a legacy device is asked to join, through service [target]. *)
Definition join_request (target name password : string) (k : Z) : json :=
  JObj [(target, JObj [("set_stainfo",
    JObj [("ssid", JStr name); ("password", JStr password); ("key_type", JInt k)])])].

(** C105: a legacy device is asked through the first service, and only if that fails with a
    library error through the second, whose outcome then counts. *)
Theorem iot_join reply name password keytype k log :
  py_int (JStr keytype) = Ok k ->
  let q1 := join_request "netif" name password k in
  let q2 := join_request "smartlife.iot.common.softaponboarding" name password k in
  let r1 := query_helper "netif" "set_stainfo" (reply q1) in
  let r2 := query_helper "smartlife.iot.common.softaponboarding" "set_stainfo" (reply q2) in
  iot_wifi_join reply name password keytype log =
    match r1 with
    | Ok v => (log ++ [q1], Ok v)
    | Err e => if is_kasa e then ((log ++ [q1]) ++ [q2], r2) else (log ++ [q1], Err e)
    end.
Proof.
  intros Hk. cbv zeta. unfold iot_wifi_join, mbind, mlift. rewrite Hk. unfold or_else, helper.
  change (create_request "netif" "set_stainfo"
    (Some (JObj [("ssid", JStr name); ("password", JStr password); ("key_type", JInt k)])) None)
    with (join_request "netif" name password k).
  destruct (query_helper _ _ (reply (join_request "netif" name password k))) as [v|e]; [reflexivity|].
  destruct (is_kasa e); reflexivity.
Qed.
Print Assumptions iot_join.

(** An entry of a legacy device's list. *)
Definition legacy_entry (v : json) (d : dict json) (s k : json) : Prop :=
  v = JObj d /\ dget "ssid" d = Some s /\ dget "key_type" d = Some k /\
  forall f, In f (dkeys d) -> In f ["ssid"; "key_type"; "cipher_type"; "bssid"; "channel"; "rssi"; "signal_level"].

(** C104: a legacy scan lists the names and kinds exactly as reported, in order. *)
Theorem iot_scan_partial reply log l rows info :
  let q1 := JObj [("netif", JObj [("get_scaninfo", JObj [("refresh", JInt 1)])])] in
  query_helper "netif" "get_scaninfo" (reply q1) = Ok (JObj info) ->
  dget "ap_list" info = Some (JArr l) ->
  Forall2 (fun v (r : dict json * json * json) => let '(d, s, k) := r in legacy_entry v d s k) l rows ->
  exists ns, iot_wifi_scan reply log = (log ++ [q1], Ok ns) /\
    map n_ssid ns = map (fun r => snd (fst r)) rows /\ map n_key_type ns = map snd rows.
Proof.
  intros q1 Hq Ha Hl.
  assert (HN : exists ns, nets_of l = Ok ns /\ map n_ssid ns = map (fun r => snd (fst r)) rows /\
                 map n_key_type ns = map snd rows).
  { clear - Hl. induction Hl as [|v [[d s] k] l rows (-> & Hs & Hk & Hf) Hl IH].
    - exists []. repeat split.
    - destruct IH as (ns & E & E1 & E2). eexists. split; [|split].
      + cbn [nets_of net_of].
        replace (forallb (fun k => smem k net_fields) (dkeys d)) with true.
        2:{ symmetry. apply forallb_forall. intros f Hi. apply smem_In. now apply Hf. }
        cbn [negb]. rewrite Hs, Hk. cbn [bind]. rewrite E. cbn [bind]. reflexivity.
      + cbn [map n_ssid snd fst]. now rewrite E1.
      + cbn [map n_key_type snd fst]. now rewrite E2. }
  destruct HN as (ns & E & E1 & E2). exists ns. split; [|split; assumption].
  unfold iot_wifi_scan, mbind, or_else, helper.
  change (create_request "netif" "get_scaninfo" (Some (JObj [("refresh", JInt 1)])) None) with q1.
  rewrite Hq. unfold mlift. cbn [jcontains]. unfold dmem. rewrite Ha. cbn [bind negb jitem].
  unfold dindex. rewrite Ha. cbn [bind jiter]. now rewrite E.
Qed.
Print Assumptions iot_scan_partial.
(** An answer without a list of networks is reported, after the same one request. *)
Theorem iot_scan_no_list reply log info :
  let q1 := JObj [("netif", JObj [("get_scaninfo", JObj [("refresh", JInt 1)])])] in
  query_helper "netif" "get_scaninfo" (reply q1) = Ok (JObj info) ->
  dget "ap_list" info = None -> iot_wifi_scan reply log = (log ++ [q1], Err KKasa).
Proof.
  intros q1 Hq Ha. unfold iot_wifi_scan, mbind, or_else, helper.
  change (create_request "netif" "get_scaninfo" (Some (JObj [("refresh", JInt 1)])) None) with q1.
  rewrite Hq. unfold mlift. cbn [jcontains]. unfold dmem. rewrite Ha. reflexivity.
Qed.
Print Assumptions iot_scan_no_list.
Example iot_scan_no_list_case :
  query_helper "netif" "get_scaninfo" (Ok (JObj [("netif", JObj [("get_scaninfo", JObj [("err_code", JInt 0)])])])) = Ok (JObj []).
Proof. reflexivity. Qed.

(** An entry with one more field than the library knows makes the scan fail. *)
Theorem iot_scan_refuted : exists reply,
  reply (JObj [("netif", JObj [("get_scaninfo", JObj [("refresh", JInt 1)])])]) =
    Ok (JObj [("netif", JObj [("get_scaninfo", JObj [("ap_list",
      JArr [JObj [("ssid", JStr "home"); ("key_type", JInt 3); ("wps", JInt 1)]]); ("err_code", JInt 0)])])])
  /\ snd (iot_wifi_scan reply []) = Err PyTypeError.
Proof.
  exists (fun _ => Ok (JObj [("netif", JObj [("get_scaninfo", JObj [("ap_list",
      JArr [JObj [("ssid", JStr "home"); ("key_type", JInt 3); ("wps", JInt 1)]]); ("err_code", JInt 0)])])])).
  split; reflexivity.
Qed.
Print Assumptions iot_scan_refuted.

Example iot_join_falls_back :
  iot_wifi_join (fun q => if match q with JObj (("netif", _) :: _) => true | _ => false end
                          then Err KTimeout
                          else Ok (JObj [(onboarding, JObj [("set_stainfo", JObj [("err_code", JInt 0)])])]))
    "home" "secret" "3" [] =
  ([join_request "netif" "home" "secret" 3; join_request onboarding "home" "secret" 3], Ok (JObj [])).
Proof. reflexivity. Qed.

(** ** Facts (C106) *)
Theorem iot_location_shown d : forall a b,
  (iot_location d = (Some a, Some b) <->
     (dget "latitude" d = Some a /\ dget "longitude" d = Some b) \/
     ((dget "latitude" d = None \/ dget "longitude" d = None) /\
      exists x y, dget "latitude_i" d = Some x /\ dget "longitude_i" d = Some y /\
        a = (x / 10000)%Q /\ b = (y / 10000)%Q)) /\
  (fst (iot_location d) = None <-> snd (iot_location d) = None) /\
  (fst (iot_location d) = None <->
     (dget "latitude" d = None \/ dget "longitude" d = None) /\
     (dget "latitude_i" d = None \/ dget "longitude_i" d = None)).
Proof.
  intros a b. unfold iot_location.
  destruct (dget "latitude" d) as [p|], (dget "longitude" d) as [q|];
    destruct (dget "latitude_i" d) as [x|], (dget "longitude_i" d) as [y|]; cbn [fst snd].
  all: split; [split|split; split].
  all: try (intros [= <- <-]; solve [left; auto|right; split; [auto|eauto 10]]).
  all: try (intros [(H1 & H2)|(H0 & x' & y' & H1 & H2 & -> & ->)]; first [congruence|destruct H0; congruence]).
  all: try discriminate; try tauto; try (intros [[H|H] [H'|H']]; congruence).
Qed.
Print Assumptions iot_location_shown.

Theorem smart_location_partial d x y :
  dget "latitude" d = Some x -> dget "longitude" d = Some y ->
  smart_location d = (Some (x / 10000)%Q, Some (y / 10000)%Q).
Proof. intros Hx Hy. unfold smart_location, get_or_0. now rewrite Hx, Hy. Qed.
Print Assumptions smart_location_partial.

(** A SMART device that does not report where it is is shown in the Gulf of Guinea. *)
Theorem smart_location_refuted :
  exists a b, smart_location [] = (Some a, Some b) /\ (a == 0)%Q /\ (b == 0)%Q.
Proof. eexists. eexists. split; [reflexivity|]. split; reflexivity. Qed.
Print Assumptions smart_location_refuted.

(** Before the first update a property guarded by its name gives what discovery reported under
    that name or a library error. *)
Theorem guarded {A} (sys_info : option (dict A)) name :
  requires_update true sys_info name = Ok tt /\
  (requires_update false sys_info name = Ok tt <->
     exists d v, sys_info = Some d /\ dget name d = Some v) /\
  forall e, requires_update false sys_info name = Err e -> e = KKasa.
Proof.
  split; [reflexivity|]. split.
  - unfold requires_update. cbn [negb andb]. destruct sys_info as [d|].
    + unfold dmem. destruct (dget name d) as [v|] eqn:E; cbn.
      * split; [eauto|reflexivity].
      * split; [discriminate|]. intros (d' & v & [= <-] & Hv). congruence.
    + split; [discriminate|]. intros (d & v & Hd & _). discriminate.
  - unfold requires_update. cbn [negb andb]. intros e.
    destruct sys_info as [d|]; [destruct (dmem name d)|]; cbn; congruence.
Qed.
Print Assumptions guarded.

(** Signal strength: the number reported, nothing if none was. *)
Theorem rssi_shown updated d z :
  (dget "rssi" d = Some (JInt z) -> iot_rssi updated (Some d) = Ok (Some z)) /\
  (dget "rssi" d = Some (JStr (NilZero.string_of_int (Z.to_int z))) -> iot_rssi updated (Some d) = Ok (Some z)) /\
  (dget "rssi" d = Some (JInt z) -> z <> 0 -> smart_rssi d = Ok (Some z)) /\
  (dget "rssi" d = None -> iot_rssi true (Some d) = Ok None /\ smart_rssi d = Ok None /\
     iot_rssi false (Some d) = Err KKasa).
Proof.
  split; [|split; [|split]].
  - intros H. unfold iot_rssi, requires_update, dmem. rewrite H. destruct updated; reflexivity.
  - intros H. unfold iot_rssi, requires_update, dmem. rewrite H.
    assert (E : py_int (JStr (NilZero.string_of_int (Z.to_int z))) = Ok z).
    { unfold py_int. rewrite NilZero.isi.
      - now rewrite DecimalZ.of_to.
      - destruct z; cbn; try discriminate. intro X. injection X as X. now apply (DecimalPos.Unsigned.to_uint_nonnil p).
      - destruct z; cbn; try discriminate. intro X. injection X as X. now apply (DecimalPos.Unsigned.to_uint_nonnil p). }
    destruct updated; cbn [bind negb orb andb]; rewrite E; reflexivity.
  - intros H Hz. unfold smart_rssi. rewrite H. cbn. destruct z; [congruence|reflexivity|reflexivity].
  - intros H. unfold iot_rssi, smart_rssi, requires_update, dmem. rewrite H. repeat split.
Qed.
Print Assumptions rssi_shown.

(** The hardware facts are exactly those of the listed fields that the device reports. *)
Theorem hw_info_shown d : exists h, iot_hw_info true (Some d) = Ok h /\
  forall k, dget k h =
    if smem k ["sw_ver"; "hw_ver"; "mac"; "mic_mac"; "type"; "mic_type"; "hwId"; "fwId"; "oemId"; "dev_name"]
    then dget k d else None.
Proof.
  eexists. split; [reflexivity|]. intros k.
  assert (H : forall ks, dget k (flat_map (fun k => match dget k d with Some v => [(k, v)] | None => [] end) ks)
                = if smem k ks then dget k d else None).
  { induction ks as [|x ks IH]; [reflexivity|]. cbn [flat_map smem existsb].
    destruct (String.eqb k x) eqn:E; cbn [orb].
    - apply String.eqb_eq in E. subst x. destruct (dget k d) as [v|] eqn:Ed.
      + cbn. now rewrite String.eqb_refl.
      + cbn [app]. rewrite IH. now destruct (smem k ks).
    - destruct (dget x d) as [v|]; [|exact IH]. cbn [app dget]. rewrite E. exact IH. }
  apply H.
Qed.
Print Assumptions hw_info_shown.
