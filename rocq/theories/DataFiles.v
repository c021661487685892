(** Generated by tools/gen_files.py from /repo/database/json: for each file, in
    the order of the directory, what generators/database/database.go uses of it.
    Texts as decoded by encoding/json. *)
From Verif Require Import ModelBase.
(** database.go:76-86 [commandClass] *)
Record jclass : Type := mkJC {
  jc_id : string; jc_version : string; jc_nif : bool; jc_secure : bool; jc_nonsecure : bool }.
(** database.go:17-42 [deviceData], 69-74 [endpoint]: the classes of each endpoint *)
Record jfile : Type := mkJF {
  j_label : string; j_manufacturer_name : string; j_manufacturer_id : string;
  j_refs : list string; j_decription : string; j_endpoints : list (list jclass) }.
Local Open Scope string_scope.
Definition file0 := mkJF "Sensoair" "SIEGENIA-AUBI KG" "0081" ["00A0:0001"] "Air quality sensor for indoor use" [[mkJC "00" "1" false false true; mkJC "20" "1" false false true; mkJC "31" "3" true false true; mkJC "70" "1" true false true; mkJC "72" "1" true false true; mkJC "73" "0" true false true; mkJC "85" "1" true false true; mkJC "86" "1" true false true; mkJC "9E" "1" true false true]].
Definition file1 := mkJF "TD1311" "Good Way Technology Co., Ltd" "0068" ["0000:0010"] "In wall Power Monitor Switch" [[mkJC "00" "1" false false true; mkJC "20" "1" false false true; mkJC "25" "0" false false true; mkJC "27" "1" false false true; mkJC "60" "2" false false true; mkJC "70" "1" false false true; mkJC "72" "1" false false true; mkJC "7A" "1" false false true; mkJC "86" "1" false false true]; [mkJC "20" "0" false false true; mkJC "25" "0" false false true; mkJC "32" "0" false false true]; [mkJC "20" "0" false false true; mkJC "25" "0" false false true; mkJC "32" "0" false false true]].
Definition file2 := mkJF "Vitrum III EU Dimmer" "VDA" "010A" ["1100:4B00"] "" [[mkJC "00" "1" false false true; mkJC "20" "1" false false true; mkJC "26" "1" true false true; mkJC "27" "1" true false true; mkJC "60" "2" true false true; mkJC "72" "1" true false true; mkJC "77" "1" true false true; mkJC "85" "1" true false true; mkJC "86" "1" true false true; mkJC "87" "1" true false true; mkJC "8E" "1" true false true; mkJC "91" "0" true false true]; [mkJC "20" "0" false false true; mkJC "26" "1" false false true; mkJC "72" "1" false false true; mkJC "86" "1" false false true]; [mkJC "20" "0" false false true; mkJC "26" "1" false false true; mkJC "72" "1" false false true; mkJC "86" "1" false false true]; [mkJC "20" "0" false false true; mkJC "26" "1" false false true; mkJC "72" "1" false false true; mkJC "86" "1" false false true]].
Definition file3 := mkJF "45602" "ACT - Advanced Control Technologies" "0001" ["4450:3030"] "Lamp Module with Dimmer Control" [[mkJC "00" "1" false false true; mkJC "20" "1" false false true; mkJC "26" "1" true false true; mkJC "27" "1" true false true; mkJC "70" "1" true false true; mkJC "72" "1" true false true; mkJC "73" "1" true false true; mkJC "75" "1" true false true; mkJC "86" "1" true false true]].
Definition file4 := mkJF "ZDM230" "ACT - Advanced Control Technologies" "0001" ["444D:3330"] "HomePro Wall Dimmer ZDM230" [[mkJC "20" "1" true false true; mkJC "26" "1" true false true; mkJC "27" "1" true false true; mkJC "70" "1" true false true; mkJC "72" "1" true false true; mkJC "73" "1" true false true; mkJC "85" "1" true false true; mkJC "86" "1" true false true]].
Definition file5 := mkJF "ZDP200" "ACT - Advanced Control Technologies" "0001" ["4450:3030"] "HomePro ZDP200 Wall Dimmer" [[mkJC "00" "1" false false true; mkJC "20" "1" false false true; mkJC "26" "1" true false true; mkJC "27" "1" true false true; mkJC "75" "1" true false true]].
Definition file6 := mkJF "ZDW103" "ACT - Advanced Control Technologies" "0001" ["4457:3033"] "Wall Mounted 3-Way Dimmer Receiver" [[mkJC "00" "1" false false true; mkJC "20" "1" false false true; mkJC "26" "1" true false true; mkJC "27" "1" true false true; mkJC "70" "1" true false true; mkJC "72" "1" true false true; mkJC "73" "1" true false true; mkJC "85" "1" true false true; mkJC "86" "1" true false true]].
Definition file7 := mkJF "ZDW120" "ACT - Advanced Control Technologies" "0001" ["4457:3230"] "Two Wire Wall Dimer" [[mkJC "00" "1" false false true; mkJC "20" "1" false false true; mkJC "26" "1" true false true; mkJC "27" "1" true false true; mkJC "70" "1" true false true; mkJC "72" "1" true false true; mkJC "73" "1" true false true; mkJC "85" "1" true false true; mkJC "86" "1" true false true]].
Definition file8 := mkJF "ZIR010" "ACT - Advanced Control Technologies" "0001" ["4952:3130"] "PIR Motion Sensor" [[mkJC "00" "1" false false true; mkJC "20" "1" false false true; mkJC "30" "1" true false true; mkJC "70" "1" true false true; mkJC "71" "1" true false true; mkJC "72" "1" true false true; mkJC "80" "1" true false true; mkJC "84" "1" true false true; mkJC "85" "1" true false true; mkJC "86" "1" true false true]].
Definition file9 := mkJF "ZRM230" "ACT - Advanced Control Technologies" "0001" ["524D:3330"] "Wall Switch/Transmitter (2-gang)" [[mkJC "00" "1" false false true; mkJC "20" "1" false false true; mkJC "25" "1" false false true; mkJC "26" "0" false false true; mkJC "70" "1" false false true; mkJC "72" "1" false false true; mkJC "85" "1" false false true; mkJC "86" "1" false false true]].
Definition file10 := mkJF "ZRP200" "ACT - Advanced Control Technologies" "0001" ["7FFF:7FFF"] "HomePro Applicance Module ZRP200" [[mkJC "00" "1" false false true; mkJC "20" "1" false false true; mkJC "25" "1" true false true; mkJC "27" "1" true false true; mkJC "75" "1" true false true]].
Definition file11 := mkJF "ZRW230" "ACT - Advanced Control Technologies" "0001" ["5257:3330"] "Wall Mounted 3-Way Switch" [[mkJC "00" "1" false false true; mkJC "20" "1" false false true; mkJC "25" "1" true false true; mkJC "27" "1" true false true; mkJC "70" "1" true false true; mkJC "72" "1" true false true; mkJC "73" "1" true false true; mkJC "85" "1" true false true; mkJC "86" "1" true false true]].
Definition file12 := mkJF "ZTM230" "ACT - Advanced Control Technologies" "0001" ["544D:3330"] "Dual paddle wall mounted transmitter" [[mkJC "00" "1" false false true; mkJC "20" "1" false false true; mkJC "25" "1" false false true; mkJC "26" "1" false false true; mkJC "27" "1" false false true; mkJC "70" "1" false false true; mkJC "72" "1" false false true; mkJC "85" "1" false false true; mkJC "86" "1" false false true; mkJC "87" "1" false false true]].
Definition file13 := mkJF "ZW120" "AEON Labs" "0086" ["0002:0078"; "0102:0078"] "Door/Window sensor Gen5" [[mkJC "00" "1" false false true; mkJC "20" "1" false false true; mkJC "30" "1" false false true; mkJC "70" "1" false false true; mkJC "71" "1" false false true; mkJC "72" "1" false false true; mkJC "80" "1" false false true; mkJC "84" "2" false false true; mkJC "85" "1" false false true; mkJC "86" "1" false false true]].
Definition file14 := mkJF "DSA03202" "AEON Labs" "0086" ["0001:0003"; "0006:0002"] "Minimote 4 button remote control" [[mkJC "00" "1" false false true; mkJC "20" "1" false false true; mkJC "2B" "1" false false true; mkJC "70" "1" false false true; mkJC "72" "1" false false true; mkJC "84" "1" false false true; mkJC "86" "1" false false true]].
Definition file15 := mkJF "DSA38" "AEON Labs" "0086" ["0001:0026"] "Panic Button Key Fob" [[mkJC "00" "1" false false true; mkJC "20" "1" false false true; mkJC "2B" "1" false false true; mkJC "70" "1" true false true; mkJC "72" "1" true false true; mkJC "80" "1" true false true; mkJC "84" "2" true false true; mkJC "85" "1" true false true; mkJC "86" "1" true false true]].
Definition file16 := mkJF "DSB05" "AEON Labs" "0086" ["0002:0005"] "4 in One MultiSensor" [[mkJC "00" "1" false false true; mkJC "20" "1" false false true; mkJC "30" "1" false false true; mkJC "31" "5" false false true; mkJC "70" "1" false false true; mkJC "72" "1" false false true; mkJC "80" "1" false false true; mkJC "84" "2" false false true; mkJC "85" "1" false false true; mkJC "86" "1" false false true]].
Definition file17 := mkJF "DSB09" "AEON Labs" "0086" ["0002:0009"] "Home Energy Meter" [[mkJC "00" "1" false false true; mkJC "20" "1" false false true; mkJC "31" "2" true false true; mkJC "32" "2" true false true; mkJC "60" "2" true false true; mkJC "70" "1" true false true; mkJC "72" "1" true false true; mkJC "80" "1" true false true; mkJC "85" "1" true false true; mkJC "86" "1" true false true]; [mkJC "20" "0" false false true; mkJC "31" "2" false false true; mkJC "32" "2" false false true]; [mkJC "20" "0" false false true; mkJC "31" "2" false false true; mkJC "32" "2" false false true]; [mkJC "20" "0" false false true; mkJC "31" "2" false false true; mkJC "32" "2" false false true]].
Definition file18 := mkJF "DSB28" "AEON Labs" "0086" ["0002:001C"] "Home Energy Meter G2" [[mkJC "00" "1" false false true; mkJC "20" "1" false false true; mkJC "32" "3" false false true; mkJC "56" "1" false false true; mkJC "60" "2" false false true; mkJC "70" "1" false false true; mkJC "72" "1" false false true; mkJC "85" "1" false false true; mkJC "86" "1" false false true]; [mkJC "20" "0" false false true; mkJC "32" "3" false false true]; [mkJC "20" "0" false false true; mkJC "32" "3" false false true]; [mkJC "20" "0" false false true; mkJC "32" "3" false false true]].
Definition file19 := mkJF "DSB29" "AEON Labs" "0086" ["0002:0004"; "0002:001D"] "Door/Window sensor Gen2" [[mkJC "00" "1" false false true; mkJC "20" "1" false false true; mkJC "30" "1" false false true; mkJC "70" "1" false false true; mkJC "71" "1" false false true; mkJC "72" "1" false false true; mkJC "80" "1" false false true; mkJC "84" "2" false false true; mkJC "85" "1" false false true; mkJC "86" "1" false false true]].
Definition file20 := mkJF "DSB45" "AEON Labs" "0086" ["0002:002D"] "Water Sensor" [[mkJC "00" "1" false false true; mkJC "20" "1" false false true; mkJC "30" "1" false false true; mkJC "70" "1" false false true; mkJC "71" "1" false false true; mkJC "72" "1" false false true; mkJC "80" "1" false false true; mkJC "84" "2" false false true; mkJC "85" "1" false false true; mkJC "86" "1" false false true]].
Definition file21 := mkJF "DSB54" "AEON Labs" "0086" ["0002:0036"] "Recessed Door/Window Sensor" [[mkJC "00" "1" false false true; mkJC "20" "1" false false true; mkJC "30" "1" true false true; mkJC "70" "1" true false true; mkJC "72" "1" true false true; mkJC "80" "1" true false true; mkJC "84" "2" true false true; mkJC "85" "1" true false true; mkJC "86" "1" true false true]].
Definition file22 := mkJF "DSC06" "AEON Labs" "0086" ["0003:0006"] "Smart Energy Switch" [[mkJC "00" "1" false false true; mkJC "20" "1" false false true; mkJC "25" "1" false false true; mkJC "27" "1" false false true; mkJC "31" "3" false false true; mkJC "32" "2" false false true; mkJC "70" "1" false false true; mkJC "72" "1" false false true; mkJC "85" "1" false false true; mkJC "86" "1" false false true]].
Definition file23 := mkJF "DSC08" "AEON Labs" "0086" ["0003:0008"] "Smart Energy Illuminator" [[mkJC "00" "1" false false true; mkJC "20" "1" false false true; mkJC "26" "1" false false true; mkJC "27" "0" false false true; mkJC "31" "3" false false true; mkJC "32" "2" false false true; mkJC "70" "1" false false true; mkJC "72" "1" false false true; mkJC "85" "1" false false true; mkJC "86" "1" false false true]].
Definition file24 := mkJF "DSC10" "AEON Labs" "0086" ["0003:000A"] "Heavy Duty Smart Switch" [[mkJC "20" "1" false false false; mkJC "25" "1" true false true; mkJC "27" "1" true false true; mkJC "2B" "1" true false true; mkJC "2C" "1" true false true; mkJC "31" "5" true false true; mkJC "32" "3" true false true; mkJC "70" "1" true false true; mkJC "72" "2" true false true; mkJC "82" "1" true false true; mkJC "85" "1" true false true; mkJC "86" "1" true false true]].
Definition file25 := mkJF "DSC11" "AEON Labs" "0086" ["0003:000B"] "Smart Strip" [[mkJC "00" "1" false false true; mkJC "20" "1" false false true; mkJC "25" "1" false false true; mkJC "27" "1" false false true; mkJC "32" "2" false false true; mkJC "60" "2" false false true; mkJC "70" "1" false false true; mkJC "72" "1" false false true; mkJC "85" "1" false false true; mkJC "86" "1" false false true]; [mkJC "20" "0" false false true; mkJC "25" "1" false false true; mkJC "32" "2" false false true]; [mkJC "20" "0" false false true; mkJC "25" "1" false false true; mkJC "32" "2" false false true]; [mkJC "20" "0" false false true; mkJC "25" "1" false false true; mkJC "32" "2" false false true]; [mkJC "20" "0" false false true; mkJC "25" "1" false false true; mkJC "32" "2" false false true]; [mkJC "20" "0" false false true; mkJC "25" "1" false false true; mkJC "32" "0" false false true]; [mkJC "20" "0" false false true; mkJC "25" "1" false false true; mkJC "32" "0" false false true]].
Definition file26 := mkJF "DSC12" "AEON Labs" "0086" ["0003:000C"] "Micro Smart Energy Switch" [[mkJC "00" "1" false false true; mkJC "20" "1" false false true; mkJC "25" "1" true false true; mkJC "27" "1" true false true; mkJC "31" "3" true false true; mkJC "32" "2" true false true; mkJC "70" "1" true false true; mkJC "72" "1" true false true; mkJC "85" "1" true false true; mkJC "86" "1" true false true]].
Definition file27 := mkJF "DSC13" "AEON Labs" "0086" ["0003:000D"] "Micro Smart Energy Illuminator" [[mkJC "00" "1" false false true; mkJC "20" "0" false false true; mkJC "26" "1" false false true; mkJC "27" "1" false false true; mkJC "31" "3" false false true; mkJC "32" "2" false false true; mkJC "70" "1" false false true; mkJC "72" "1" false false true; mkJC "85" "1" false false true; mkJC "86" "1" false false true]].
Definition file28 := mkJF "DSC14" "AEON Labs" "0086" ["0003:000E"] "Micro Motor Controller" [[mkJC "00" "1" false false true; mkJC "20" "1" false false true; mkJC "25" "1" true false true; mkJC "26" "3" true false true; mkJC "70" "1" true false true; mkJC "72" "1" true false true; mkJC "85" "1" true false true; mkJC "86" "1" true false true]].
Definition file29 := mkJF "DSC17" "AEON Labs" "0086" ["0003:0011"] "Micro Double Smart Switch" [[mkJC "00" "1" false false true; mkJC "20" "1" false false true; mkJC "25" "1" true false true; mkJC "27" "1" true false true; mkJC "31" "3" true false true; mkJC "32" "2" true false true; mkJC "60" "2" true false true; mkJC "70" "1" true false true; mkJC "72" "1" true false true; mkJC "85" "1" true false true; mkJC "86" "1" true false true]; [mkJC "20" "0" false false true; mkJC "25" "1" false false true]; [mkJC "20" "0" false false true; mkJC "25" "1" false false true]].
Definition file30 := mkJF "DSC18" "AEON Labs" "0086" ["0003:0012"] "Micro Smart Energy Switch G2" [[mkJC "00" "1" false false true; mkJC "20" "1" false false true; mkJC "25" "1" true false true; mkJC "27" "1" true false true; mkJC "2B" "1" true false true; mkJC "2C" "0" true false true; mkJC "32" "3" true false true; mkJC "56" "1" true false true; mkJC "70" "1" true false true; mkJC "72" "1" true false true; mkJC "85" "1" true false true; mkJC "86" "1" true false true]].
Definition file31 := mkJF "DSC19" "AEON Labs" "0086" ["0003:0013"] "Micro Smart Energy Illuminator G2" [[mkJC "00" "1" false false true; mkJC "20" "1" false false true; mkJC "26" "2" true false true; mkJC "27" "1" true false true; mkJC "2B" "1" true false true; mkJC "2C" "0" true false true; mkJC "32" "3" true false true; mkJC "70" "1" true false true; mkJC "72" "1" true false true; mkJC "85" "1" true false true; mkJC "86" "1" true false true]].
Definition file32 := mkJF "DSC24" "AEON Labs" "0086" ["0003:0018"; "0103:004B"] "Smart Energy Switch G2" [[mkJC "00" "1" false false true; mkJC "20" "1" false false true; mkJC "25" "1" true false true; mkJC "27" "1" true false true; mkJC "2B" "1" true false true; mkJC "2C" "0" true false true; mkJC "32" "3" true false true; mkJC "56" "1" true false true; mkJC "70" "1" true false true; mkJC "72" "1" true false true; mkJC "85" "1" true false true; mkJC "86" "1" true false true]].
Definition file33 := mkJF "DSC25" "AEON Labs" "0086" ["0003:0019"] "Smart Energy Illuminator G2" [[mkJC "20" "0" true false true; mkJC "26" "0" true false true; mkJC "27" "0" true false true; mkJC "2B" "0" true false true; mkJC "2C" "0" true false true; mkJC "32" "0" true false true; mkJC "70" "0" true false true; mkJC "72" "0" true false true; mkJC "82" "0" true false true; mkJC "85" "0" true false true; mkJC "86" "0" true false true]].
Definition file34 := mkJF "DSC26" "AEON Labs" "0086" ["0003:001A"] "Micro Switch G2" [[mkJC "00" "1" false false true; mkJC "20" "1" false false true; mkJC "25" "1" true false true; mkJC "27" "1" true false true; mkJC "2B" "1" true false true; mkJC "2C" "0" true false true; mkJC "56" "1" true false true; mkJC "70" "1" true false true; mkJC "72" "1" true false true; mkJC "85" "1" true false true; mkJC "86" "1" true false true]].
Definition file35 := mkJF "DSC27" "AEON Labs" "0086" ["0003:001B"] "Micro Illuminator G2" [[mkJC "00" "1" false false true; mkJC "20" "1" false false true; mkJC "26" "2" true false true; mkJC "27" "1" true false true; mkJC "2B" "1" true false true; mkJC "2C" "0" true false true; mkJC "70" "1" true false true; mkJC "72" "1" true false true; mkJC "85" "1" true false true; mkJC "86" "1" true false true]].
Definition file36 := mkJF "DSC35" "AEON Labs" "0086" ["0003:0023"] "AEON Labs Micro Double Switch" [[mkJC "00" "1" false false true; mkJC "20" "1" false false true; mkJC "25" "1" true false true; mkJC "27" "1" true false true; mkJC "60" "2" true false true; mkJC "70" "1" true false true; mkJC "72" "1" true false true; mkJC "85" "1" true false true; mkJC "86" "1" true false true]; [mkJC "20" "0" false false true; mkJC "25" "1" false false true]; [mkJC "20" "0" false false true; mkJC "25" "1" false false true]].
Definition file37 := mkJF "DSD31" "AEON Labs" "0086" ["0004:0050"] "Outlet Plugable Siren" [[mkJC "00" "1" false false true; mkJC "20" "1" false false true; mkJC "25" "1" true false true; mkJC "2B" "1" true false true; mkJC "2C" "0" true false true; mkJC "59" "0" true false true; mkJC "5E" "1" true false true; mkJC "70" "1" true false true; mkJC "72" "1" true false true; mkJC "73" "1" true false true; mkJC "7A" "0" true false true; mkJC "85" "1" true false true; mkJC "86" "1" true false true; mkJC "98" "0" true false true]].
Definition file38 := mkJF "DSD37" "AEON Labs" "0086" ["0004:0025"; "0019:0004"] "Range Extender" [[mkJC "00" "1" false false true; mkJC "20" "1" true false true; mkJC "70" "1" true false true; mkJC "72" "1" true false true; mkJC "73" "1" true false true; mkJC "85" "1" true false true; mkJC "86" "1" true false true]].
Definition file39 := mkJF "ZW056" "AEON Labs" "0086" ["0004:0038"; "0104:0038"; "0204:0038"; "0304:0038"; "0904:0038"; "0A04:0038"; "1A04:0038"; "1D04:0038"] "Doorbell" [[mkJC "00" "1" false false true; mkJC "20" "1" false false true; mkJC "25" "1" true false true; mkJC "59" "0" true false true; mkJC "5A" "1" true false true; mkJC "5E" "1" true false true; mkJC "70" "1" true false true; mkJC "72" "1" true false true; mkJC "73" "1" true false true; mkJC "7A" "0" true false true; mkJC "85" "1" true false true; mkJC "86" "1" true false true; mkJC "98" "0" true false true]].
Definition file40 := mkJF "ZW062" "AEON Labs" "0086" ["0003:003E"; "0103:003E"; "0203:003E"] "Aeon Labs Garage Door Controller  Gen5 " [[mkJC "00" "1" false false true; mkJC "20" "1" false false true; mkJC "25" "1" false false true; mkJC "66" "1" false false false; mkJC "70" "1" false false true; mkJC "72" "1" false false true; mkJC "85" "1" false false true; mkJC "86" "1" false false true]].
Definition file41 := mkJF "ZW074" "AEON Labs" "0086" ["0002:004A"; "0102:004A"; "0202:004A"] "4 in One MultiSensor (G5)" [[mkJC "00" "1" false false true; mkJC "20" "1" false false true; mkJC "30" "1" false false true; mkJC "31" "5" false false true; mkJC "70" "1" false false true; mkJC "71" "1" false false true; mkJC "72" "1" false false true; mkJC "80" "1" false false true; mkJC "84" "2" false false true; mkJC "85" "1" false false true; mkJC "86" "1" false false true]].
Definition file42 := mkJF "ZW075" "AEON Labs" "0086" ["0003:004B"; "0203:004B"] "Smart Energy Switch 3rd Edition" [[mkJC "00" "1" false false true; mkJC "20" "1" false false true; mkJC "22" "0" false false true; mkJC "25" "1" false false true; mkJC "27" "0" false false true; mkJC "2B" "1" false false true; mkJC "30" "0" false false true; mkJC "32" "3" false false true; mkJC "56" "1" false false true; mkJC "59" "0" false false false; mkJC "70" "1" false false true; mkJC "72" "1" false false true; mkJC "84" "0" false false true; mkJC "85" "1" false false true; mkJC "86" "1" false false true]].
Definition file43 := mkJF "ZW078" "AEON Labs" "0086" ["0003:004E"; "0103:004E"; "0203:004E"] "Heavy Duty Switch" [[mkJC "20" "1" true false true; mkJC "25" "1" true false true; mkJC "27" "1" true false true; mkJC "2B" "1" true false true; mkJC "2C" "1" true false true; mkJC "31" "5" true false true; mkJC "32" "3" true false true; mkJC "56" "1" true true true; mkJC "59" "1" true false true; mkJC "5A" "1" true true true; mkJC "5E" "2" true true true; mkJC "70" "1" true false true; mkJC "72" "2" true true true; mkJC "73" "1" true false true; mkJC "82" "1" true true true; mkJC "85" "2" true false true; mkJC "86" "2" true true true; mkJC "EF" "1" false false false]].
Definition file44 := mkJF "ZW080" "AEON Labs" "0086" ["0004:0050"; "0104:0050"; "0204:0050"] "Siren Gen5" [[mkJC "00" "1" false false true; mkJC "20" "1" false false true; mkJC "25" "1" true false true; mkJC "2B" "1" true false true; mkJC "2C" "0" true false true; mkJC "59" "0" true false true; mkJC "5E" "1" true false true; mkJC "70" "1" true false true; mkJC "72" "1" true false true; mkJC "73" "1" true false true; mkJC "7A" "0" true false true; mkJC "85" "1" true false true; mkJC "86" "1" true false true; mkJC "98" "0" true false true]].
Definition file45 := mkJF "ZW088" "AEON Labs" "0086" ["0001:0058"; "0101:0058"; "0201:0058"] "4 button keyfob - Gen 5" [[mkJC "00" "0" false false true; mkJC "20" "0" false false true; mkJC "2B" "0" false false true; mkJC "59" "0" true false true; mkJC "5A" "0" true false true; mkJC "5E" "0" true false true; mkJC "70" "0" true false true; mkJC "72" "0" true false true; mkJC "73" "0" true false true; mkJC "80" "0" true false true; mkJC "84" "0" true false true; mkJC "85" "0" true false true; mkJC "86" "0" true false true]].
Definition file46 := mkJF "ZW089" "AEON Labs" "0086" ["0002:0059"; "0102:0059"; "0202:0059"] "Recessed Door Sensor Gen5" [[mkJC "00" "1" false false true; mkJC "20" "1" false false true; mkJC "30" "1" false false true; mkJC "70" "1" false false true; mkJC "71" "1" false false true; mkJC "72" "1" false false true; mkJC "80" "1" false false true; mkJC "84" "2" false false true; mkJC "85" "1" false false true; mkJC "86" "1" false false true]].
Definition file47 := mkJF "ZW095" "AEON Labs" "0086" ["0002:005F"; "0102:005F"] "Home Energy Meter - Gen 5 " [[mkJC "20" "1" false false true; mkJC "32" "3" true true true; mkJC "56" "1" true true true; mkJC "59" "1" true true true; mkJC "5A" "1" false true true; mkJC "5E" "2" true false true; mkJC "60" "3" true true true; mkJC "70" "1" true true true; mkJC "72" "2" true true true; mkJC "73" "1" true true true; mkJC "7A" "2" true true true; mkJC "85" "2" true true true; mkJC "86" "2" true true true; mkJC "8E" "2" true true true; mkJC "98" "1" true false true; mkJC "EF" "1" true false true]; [mkJC "20" "0" false false true; mkJC "32" "3" false false true]; [mkJC "20" "0" false false true; mkJC "32" "3" false false true]; [mkJC "20" "0" false false true; mkJC "32" "0" false false true]].
Definition file48 := mkJF "ZW096" "AEON Labs" "0086" ["0003:0060"; "0103:0060"; "0203:0060"; "1D03:0060"] "Smart Switch 6" [[mkJC "00" "1" false false true; mkJC "20" "1" false false true; mkJC "25" "1" false false true; mkJC "27" "1" false false true; mkJC "32" "3" false false true; mkJC "33" "1" false false false; mkJC "70" "1" false false true; mkJC "72" "1" false false true; mkJC "85" "1" false false true; mkJC "86" "1" false false true]].
Definition file49 := mkJF "ZW097" "AEON Labs" "0086" ["0002:0061"; "0102:0061"; "0202:0061"] "Dry Contact Sensor" [[mkJC "00" "1" false false true; mkJC "20" "1" false true true; mkJC "30" "1" false true true; mkJC "59" "1" true true true; mkJC "5E" "2" true false true; mkJC "70" "1" false true true; mkJC "71" "3" true true true; mkJC "72" "2" true false true; mkJC "73" "1" false true true; mkJC "7A" "2" false true true; mkJC "80" "1" false true true; mkJC "82" "1" true false true; mkJC "84" "2" false true true; mkJC "85" "2" true true true; mkJC "86" "2" false false true; mkJC "EF" "1" false false true]].
Definition file50 := mkJF "ZW098" "AEON Labs" "0086" ["0003:0062"; "0103:0062"; "0203:0062"] "LED Bulb" [[mkJC "00" "1" false false true; mkJC "20" "1" false false true; mkJC "26" "2" false false true; mkJC "27" "0" false false true; mkJC "2B" "1" false false true; mkJC "32" "0" false false true; mkJC "33" "2" false false true; mkJC "70" "1" false false true; mkJC "72" "1" false false true; mkJC "85" "1" false false true; mkJC "86" "1" false false true]].
Definition file51 := mkJF "ZW099" "AEON Labs" "0086" ["0003:0063"; "0103:0063"; "0203:0063"; "1D03:0063"] "Smart Dimmer 6" [[mkJC "00" "1" false false true; mkJC "20" "1" false false true; mkJC "26" "2" true true true; mkJC "27" "1" true true true; mkJC "32" "3" true true true; mkJC "33" "1" true true true; mkJC "59" "1" true true true; mkJC "5A" "1" true true true; mkJC "5E" "2" true true true; mkJC "60" "4" true true true; mkJC "70" "1" true true true; mkJC "72" "2" true true true; mkJC "73" "1" true true true; mkJC "7A" "2" true true true; mkJC "81" "1" true true true; mkJC "82" "1" true true true; mkJC "85" "2" true true true; mkJC "86" "2" true true true; mkJC "8E" "3" true true true; mkJC "98" "1" true true false; mkJC "EF" "1" true true true]].
Definition file52 := mkJF "ZW100" "AEON Labs" "0086" ["0002:0064"; "0102:0064"; "0202:0064"] "MultiSensor 6" [[mkJC "00" "1" false false true; mkJC "20" "1" false false true; mkJC "30" "1" false false true; mkJC "31" "5" false false true; mkJC "70" "1" false false true; mkJC "71" "3" false false true; mkJC "72" "1" false false true; mkJC "80" "1" false false true; mkJC "84" "2" false false true; mkJC "85" "1" false false true; mkJC "86" "1" false false true]].
Definition file53 := mkJF "ZW100" "AEON Labs" "0086" ["0002:0064"; "0102:0064"; "0202:0064"] "MultiSensor 6" [[mkJC "00" "1" false false true; mkJC "20" "1" false false true; mkJC "30" "1" false false true; mkJC "31" "5" false false true; mkJC "70" "1" false false true; mkJC "71" "1" false false true; mkJC "72" "1" false false true; mkJC "80" "1" false false true; mkJC "84" "2" false false true; mkJC "85" "1" false false true; mkJC "86" "1" false false true]].
Definition file54 := mkJF "ZW100" "AEON Labs" "0086" ["0002:0064"; "0102:0064"; "0202:0064"] "MultiSensor 6" [[mkJC "00" "1" false false true; mkJC "20" "1" false false true; mkJC "30" "1" true false true; mkJC "31" "5" true false true; mkJC "59" "1" true false true; mkJC "5A" "1" true false true; mkJC "5E" "1" true false true; mkJC "70" "1" true false true; mkJC "71" "3" true false true; mkJC "72" "1" true false true; mkJC "73" "1" true false true; mkJC "7A" "1" true false true; mkJC "80" "1" true false true; mkJC "84" "2" true false true; mkJC "85" "1" true false true; mkJC "86" "1" true false true]].
Definition file55 := mkJF "ZW111" "AEON Labs" "0086" ["0103:006F"; "0203:006F"] "Nano Dimmer " [[mkJC "00" "1" false false true; mkJC "20" "1" false false true; mkJC "25" "1" true false true; mkJC "26" "3" true false true; mkJC "27" "1" true false true; mkJC "2B" "1" true false true; mkJC "2C" "1" true false true; mkJC "32" "3" true false true; mkJC "59" "1" true false true; mkJC "5A" "1" true false true; mkJC "5E" "2" true false true; mkJC "70" "1" true false true; mkJC "71" "4" true false true; mkJC "72" "2" true false true; mkJC "73" "1" true false true; mkJC "7A" "3" true false true; mkJC "81" "1" true false true; mkJC "82" "0" false false false; mkJC "85" "2" true false true; mkJC "86" "2" true false true]].
Definition file56 := mkJF "ZW112" "AEON Labs" "0086" ["0002:0070"; "0102:0070"; "0202:0070"; "1D02:0070"] "Door/Window Sensor 6" [[mkJC "20" "1" true false true; mkJC "30" "1" true false true; mkJC "59" "0" true false true; mkJC "5A" "0" true false true; mkJC "5E" "0" true false true; mkJC "70" "1" true false true; mkJC "71" "1" true false true; mkJC "72" "1" true false true; mkJC "73" "0" true false true; mkJC "7A" "2" true false true; mkJC "80" "1" true false true; mkJC "84" "2" true false true; mkJC "85" "1" true false true; mkJC "86" "1" true false true; mkJC "98" "0" true true true]].
Definition file57 := mkJF "ZW117" "AEON Labs" "0086" ["0004:0075"] "Range Extender 6" [[mkJC "00" "1" false false true; mkJC "20" "1" false false true; mkJC "26" "2" true false true; mkJC "33" "1" true false true; mkJC "59" "1" true false true; mkJC "5A" "1" true true true; mkJC "5E" "1" true true true; mkJC "70" "1" true false true; mkJC "72" "1" true true true; mkJC "73" "1" true false true; mkJC "7A" "1" true false true; mkJC "85" "2" true false true; mkJC "86" "2" true true true]].
Definition file58 := mkJF "ZW130" "AEON Labs" "0086" ["0002:0082"; "0102:0082"; "0202:0082"] "WallMote Quad" [[mkJC "00" "1" false false true; mkJC "20" "1" false false true; mkJC "59" "1" true false true; mkJC "5A" "1" true false true; mkJC "5B" "2" true false true; mkJC "5E" "1" true false true; mkJC "60" "2" true false true; mkJC "70" "1" true false true; mkJC "71" "4" true false true; mkJC "72" "1" true false true; mkJC "73" "1" true false true; mkJC "7A" "1" true false true; mkJC "80" "1" true false true; mkJC "84" "2" true false true; mkJC "85" "2" true false true; mkJC "86" "2" true false true; mkJC "8E" "3" true false true]; [mkJC "20" "0" false false true; mkJC "59" "1" false false true; mkJC "5B" "2" false false true; mkJC "5E" "1" false false true; mkJC "85" "2" false false true; mkJC "8E" "3" false false true]; [mkJC "20" "0" false false true; mkJC "59" "1" false false true; mkJC "5B" "2" false false true; mkJC "5E" "1" false false true; mkJC "85" "2" false false true; mkJC "8E" "3" false false true]; [mkJC "20" "0" false false true; mkJC "59" "1" false false true; mkJC "5B" "2" false false true; mkJC "5E" "1" false false true; mkJC "85" "2" false false true; mkJC "8E" "3" false false true]; [mkJC "20" "0" false false true; mkJC "59" "1" false false true; mkJC "5B" "2" false false true; mkJC "5E" "1" false false true; mkJC "85" "2" false false true; mkJC "8E" "3" false false true]].
Definition file59 := mkJF "ZDS-UD10" "Airline Mechanical Co., Ltd." "0111" ["8200:0200"] "Dimming Switch Module" [[mkJC "00" "1" true false true; mkJC "20" "1" true false true; mkJC "26" "2" true false true; mkJC "27" "1" true false true; mkJC "72" "1" true false true; mkJC "73" "1" true false true; mkJC "86" "1" true false true]].
Definition file60 := mkJF "BeNext Alarm Sound" "BeNext" "008A" ["0005:0101"] "Alarm sound" [[mkJC "00" "1" false false true; mkJC "20" "1" false false true; mkJC "25" "1" true false true; mkJC "70" "1" true false true; mkJC "71" "1" true false true; mkJC "72" "1" true false true; mkJC "73" "1" true false true; mkJC "85" "1" true false true; mkJC "86" "1" true false true; mkJC "8F" "1" true false true]].
Definition file61 := mkJF "builtInDimmer" "BeNext" "008A" ["000D:0100"] "BeNext Built-in Dimmer" [[mkJC "00" "1" false false true; mkJC "20" "1" false false true; mkJC "26" "1" false false true; mkJC "31" "5" false false true; mkJC "32" "2" false false true; mkJC "70" "1" false false true; mkJC "72" "1" false false true; mkJC "85" "1" false false true; mkJC "86" "1" false false true]].
Definition file62 := mkJF "doorSensor" "BeNext" "008A" ["0004:0100"; "0004:0101"] "BeNext Door Sensor" [[mkJC "00" "1" false false true; mkJC "20" "1" false false true; mkJC "30" "1" true false true; mkJC "31" "1" true false true; mkJC "70" "1" true false true; mkJC "71" "1" true false true; mkJC "72" "1" true false true; mkJC "80" "1" true false true; mkJC "84" "1" true false true; mkJC "85" "1" true false true; mkJC "86" "1" true false true]].
Definition file63 := mkJF "Energy Switch +" "BeNext" "008A" ["0020:0001"] "Energy Switch +" [[mkJC "25" "1" false false true; mkJC "27" "1" false false true; mkJC "32" "3" false false true; mkJC "56" "1" false false true; mkJC "70" "1" false false true; mkJC "72" "1" false false true; mkJC "73" "1" false false true; mkJC "75" "1" false false true; mkJC "85" "1" false false true; mkJC "86" "1" false false true]].
Definition file64 := mkJF "Heating Control" "BeNext" "008A" ["0021:0102"] "Thermostat for controlling the opentherm protocol" [[mkJC "20" "1" false false true; mkJC "31" "6" false false true; mkJC "40" "1" false false true; mkJC "43" "1" false false true; mkJC "56" "1" false false true; mkJC "72" "1" false false true; mkJC "7A" "3" false false false; mkJC "85" "2" false false true; mkJC "86" "1" false false true]].
Definition file65 := mkJF "Molite" "BeNext" "008A" ["0003:0101"; "0003:0100"] "Movement sensor with temperature and light sensor" [[mkJC "00" "1" false false true; mkJC "20" "1" false false true; mkJC "30" "1" false false true; mkJC "31" "5" false false true; mkJC "70" "1" false false true; mkJC "71" "1" false false true; mkJC "72" "1" false false true; mkJC "80" "1" false false true; mkJC "84" "1" false false true; mkJC "85" "1" false false true; mkJC "86" "1" false false true]].
Definition file66 := mkJF "P1-dongle" "BeNext" "008A" ["002F:0100"] "P1-dongle" [[mkJC "32" "3" true false true; mkJC "56" "1" true false true; mkJC "59" "0" true false true; mkJC "5A" "1" true false true; mkJC "5E" "1" true false true; mkJC "60" "2" true false true; mkJC "70" "1" true false true; mkJC "72" "1" true false true; mkJC "7A" "0" true false true; mkJC "85" "1" true false true; mkJC "86" "1" true false true; mkJC "98" "0" true false true]; [mkJC "32" "3" false false true]; [mkJC "32" "3" false false true]; [mkJC "32" "3" false false true]].
Definition file67 := mkJF "plugInDimmer" "BeNext" "008A" ["0018:0100"] "BeNext Plug-in Dimmer" [[mkJC "00" "1" false false true; mkJC "20" "1" false false true; mkJC "26" "1" true false true; mkJC "27" "1" true false true; mkJC "31" "5" true false true; mkJC "32" "2" true false true; mkJC "70" "1" true false true; mkJC "72" "1" true false true; mkJC "73" "1" true false true; mkJC "85" "1" true false true; mkJC "86" "1" true false true]].
Definition file68 := mkJF "powerSwitch" "BeNext" "008A" ["0008:0101"] "BeNext Power Switch EU" [[mkJC "00" "1" false false true; mkJC "20" "1" false false true; mkJC "25" "1" true false true; mkJC "27" "1" true false true; mkJC "70" "1" true false true; mkJC "72" "1" true false true; mkJC "73" "1" true false true; mkJC "75" "1" true false true; mkJC "85" "1" true false true; mkJC "86" "1" true false true]].
Definition file69 := mkJF "Tag Reader" "BeNext" "008A" ["0007:0101"] "Tag Reader" [[mkJC "00" "1" false false true; mkJC "20" "1" false false true; mkJC "25" "1" true false true; mkJC "63" "1" true false true; mkJC "70" "1" true false true; mkJC "71" "2" true false true; mkJC "72" "1" true false true; mkJC "76" "1" false false true; mkJC "80" "1" true false true; mkJC "84" "1" true false true; mkJC "85" "1" true false true; mkJC "86" "1" true false true]].
Definition file70 := mkJF "POPE005206" "Bönig und Kallenbach oHG" "0169" ["0001:0001"] "Z Weather" [[mkJC "00" "1" false false true; mkJC "20" "1" false false true; mkJC "30" "0" false false true; mkJC "31" "6" true false true; mkJC "32" "3" true false true; mkJC "59" "1" true false true; mkJC "5A" "0" false false true; mkJC "5E" "1" true false true; mkJC "70" "1" true false true; mkJC "72" "1" true false true; mkJC "73" "1" true false true; mkJC "80" "1" true false true; mkJC "84" "2" true false true; mkJC "85" "1" true false true; mkJC "86" "1" true false true; mkJC "89" "1" true false true; mkJC "8E" "0" true false true; mkJC "8F" "1" true false true; mkJC "9B" "0" true false true]].
Definition file71 := mkJF "ZCOMBO" "BRK Brands, Inc." "0138" ["0001:0002"] "Smoke and Carbon Monoxide Alarm" [[mkJC "00" "1" false false true; mkJC "20" "1" false false true; mkJC "70" "1" false false true; mkJC "71" "1" false false true; mkJC "72" "1" false false true; mkJC "80" "1" false false true; mkJC "85" "1" false false true; mkJC "86" "1" false false true]].
Definition file72 := mkJF "ZSMOKE" "BRK Brands, Inc." "0138" ["0001:0001"] "Smoke Alarm" [[mkJC "00" "1" false false true; mkJC "20" "1" false false true; mkJC "70" "1" false false true; mkJC "71" "1" false false true; mkJC "72" "1" false false true; mkJC "80" "1" false false true; mkJC "85" "1" false false true; mkJC "86" "1" false false true]].
Definition file73 := mkJF "SW-ZCS-1" "CBCC Domotique SAS" "0166" ["0100:0100"] "Cord Switch" [[mkJC "00" "1" false false true; mkJC "20" "1" false false true; mkJC "25" "1" true false true; mkJC "27" "1" true false true; mkJC "72" "1" true false true; mkJC "85" "1" true false true; mkJC "86" "1" true false true]].
Definition file74 := mkJF "HSM02" "Chromagic Technologies Corporation" "0116" ["0002:0001"] "Door Window Sensor" [[mkJC "00" "1" false false true; mkJC "20" "1" true false true; mkJC "30" "1" true false true; mkJC "70" "1" true false true; mkJC "71" "1" true false true; mkJC "72" "1" true false true; mkJC "80" "1" true false true; mkJC "84" "1" true false true; mkJC "85" "1" true false true; mkJC "86" "1" true false true]].
Definition file75 := mkJF "SM103" "Chromagic Technologies Corporation" "0116" ["0001:0001"] "Door/Window Contact" [[mkJC "00" "1" false false true; mkJC "20" "1" true false true; mkJC "30" "1" true false true; mkJC "70" "1" true false true; mkJC "71" "1" true false true; mkJC "72" "1" true false true; mkJC "80" "1" true false true; mkJC "84" "1" true false true; mkJC "85" "1" true false true; mkJC "86" "1" true false true]].
Definition file76 := mkJF "A803N" "Cloud Media" "0200" ["0003:0002"] "Motion Sensor" [[mkJC "00" "1" false false true; mkJC "20" "1" false false true; mkJC "30" "2" false false true; mkJC "31" "5" false false true; mkJC "70" "1" false false true; mkJC "71" "1" false false true; mkJC "72" "1" false false true; mkJC "80" "1" false false true; mkJC "84" "2" false false true; mkJC "85" "1" false false true; mkJC "86" "1" false false true]].
Definition file77 := mkJF "CH-201" "ConnectHome" "0179" ["0013:0021"] "CH-201 Thermostat" [[mkJC "00" "1" false false true; mkJC "20" "1" false false true; mkJC "31" "4" true false true; mkJC "40" "1" true false true; mkJC "42" "1" true false true; mkJC "43" "1" true false true; mkJC "60" "2" true false true; mkJC "70" "1" true false true; mkJC "72" "1" true false true; mkJC "7A" "1" true false true; mkJC "85" "1" true false true; mkJC "86" "1" true false true; mkJC "8E" "2" true false true]; [mkJC "20" "0" false false true; mkJC "31" "4" false false true; mkJC "40" "1" false false true; mkJC "42" "1" false false true; mkJC "43" "1" false false true]; [mkJC "20" "0" false false true; mkJC "31" "4" false false true]].
Definition file78 := mkJF "RF9500" "Cooper Wiring Devices" "001A" ["5342:0000"] "Battery Switch" [[mkJC "00" "1" false false true; mkJC "20" "1" false false true; mkJC "72" "1" false false true; mkJC "77" "1" false false true; mkJC "85" "1" false false true; mkJC "86" "1" false false true]].
Definition file79 := mkJF "RF9501" "Cooper Wiring Devices" "001A" ["534C:0000"] "15A Light Switch" [[mkJC "00" "1" false false true; mkJC "20" "1" false false true; mkJC "25" "1" false false true; mkJC "27" "1" false false true; mkJC "2B" "1" false false true; mkJC "70" "1" false false true; mkJC "71" "1" false false true; mkJC "72" "1" false false true; mkJC "77" "1" false false true; mkJC "82" "1" false false true; mkJC "85" "1" false false true; mkJC "86" "1" false false true; mkJC "87" "1" false false true]].
Definition file80 := mkJF "RF9517" "Cooper Wiring Devices" "001A" ["5352:0000"] "Accessory Switch" [[mkJC "00" "1" false false true; mkJC "20" "1" true false true; mkJC "25" "1" false false true; mkJC "27" "1" false false true; mkJC "2B" "1" false false true; mkJC "70" "1" false false true; mkJC "72" "1" false false true; mkJC "77" "1" false false true; mkJC "85" "1" false false true; mkJC "86" "1" false false true; mkJC "87" "1" false false true]].
Definition file81 := mkJF "RF9534WS" "Cooper Wiring Devices" "001A" ["4449:0002"] "Smart Dimmer" [[mkJC "00" "1" false false true; mkJC "20" "1" false false true; mkJC "26" "2" true false true; mkJC "27" "1" true false true; mkJC "2B" "1" true false true; mkJC "2C" "1" true false true; mkJC "70" "1" true false true; mkJC "71" "1" true false true; mkJC "72" "1" true false true; mkJC "73" "1" true false true; mkJC "75" "1" true false true; mkJC "77" "1" true false true; mkJC "82" "1" true false true; mkJC "85" "1" true false true; mkJC "86" "1" true false true; mkJC "87" "1" true false true]].
Definition file82 := mkJF "RF9540-N" "Cooper Wiring Devices" "001A" ["4449:0101"] "All Load Dimmer Light Switch" [[mkJC "00" "1" false false true; mkJC "20" "1" false false true; mkJC "26" "2" true false true; mkJC "27" "1" true false true; mkJC "2B" "1" true false true; mkJC "2C" "0" true false true; mkJC "70" "1" true false true; mkJC "71" "1" true false true; mkJC "72" "1" true false true; mkJC "73" "1" true false true; mkJC "75" "1" true false true; mkJC "77" "1" true false true; mkJC "82" "1" true false true; mkJC "85" "1" true false true; mkJC "86" "1" true false true; mkJC "87" "1" true false true]].
Definition file83 := mkJF "RF9542" "Cooper Wiring Devices" "001A" ["4441:0000"] "Dimmer Accessory Switch" [[mkJC "00" "1" false false true; mkJC "20" "1" false false true; mkJC "26" "2" true false true; mkJC "27" "1" true false true; mkJC "2B" "1" true false true; mkJC "2C" "0" true false true; mkJC "70" "1" true false true; mkJC "71" "1" true false true; mkJC "72" "1" true false true; mkJC "73" "1" true false true; mkJC "75" "1" true false true; mkJC "77" "1" true false true; mkJC "85" "1" true false true; mkJC "86" "1" true false true; mkJC "87" "1" true false true]].
Definition file84 := mkJF "RFTR9505" "Cooper Wiring Devices" "001A" ["5244:0000"] "Duplex receptical" [[mkJC "00" "1" false false true; mkJC "20" "1" false false true; mkJC "25" "1" false false true; mkJC "27" "1" false false true; mkJC "2B" "1" false false true; mkJC "70" "1" false false true; mkJC "71" "1" false false true; mkJC "72" "1" false false true; mkJC "77" "1" false false true; mkJC "82" "1" false false true; mkJC "85" "1" false false true; mkJC "86" "1" false false true; mkJC "87" "1" false false true]].
Definition file85 := mkJF "RFWC5" "Cooper Wiring Devices" "001A" ["574D:0000"] "5-Scene Keypad" [[mkJC "00" "1" false false true; mkJC "20" "1" false false true; mkJC "21" "0" true false true; mkJC "22" "1" true false true; mkJC "2B" "0" false false true; mkJC "2D" "0" true false true; mkJC "70" "1" true false true; mkJC "72" "1" true false true; mkJC "77" "1" true false true; mkJC "85" "1" true false true; mkJC "86" "1" true false true; mkJC "87" "1" true false true]].
Definition file86 := mkJF "PSMZ0001" "Coqon" "0248" ["0003:0001"] "Plug module" [[mkJC "20" "1" false false true; mkJC "25" "1" false false true; mkJC "32" "2" false false true; mkJC "59" "1" false false true; mkJC "5A" "1" false false true; mkJC "5E" "1" false false true; mkJC "70" "1" false false true; mkJC "72" "1" false false true; mkJC "73" "1" false false true; mkJC "7A" "1" false false true; mkJC "85" "1" false false true; mkJC "86" "1" false false true]].
Definition file87 := mkJF "010101" "Danfoss" "0002" ["0115:A010"] "Popp Wireless Thermostatic Valve TRV" [[mkJC "00" "1" false false true; mkJC "20" "1" false false true; mkJC "31" "6" true false true; mkJC "43" "1" true false true; mkJC "46" "1" true false true; mkJC "72" "1" true false true; mkJC "75" "2" true false true; mkJC "80" "1" true false true; mkJC "81" "1" true false true; mkJC "84" "2" true false true; mkJC "86" "1" true false true; mkJC "8F" "1" true false true]].
Definition file88 := mkJF "014G0160" "Danfoss" "0002" ["0003:8010"] "Z-Wave room sensor" [[mkJC "00" "1" false false true; mkJC "20" "1" false false true; mkJC "31" "5" false false true; mkJC "43" "2" false false true; mkJC "70" "1" false false true; mkJC "72" "1" false false true; mkJC "80" "1" false false true; mkJC "84" "2" false false true; mkJC "86" "1" false false true; mkJC "87" "1" false false true; mkJC "8F" "1" false false true]].
Definition file89 := mkJF "DTHERMZ5" "Danfoss" "0002" ["0248:A020"] "Z-Wave room sensor" [[mkJC "00" "1" false false true; mkJC "20" "1" true false true; mkJC "31" "6" true false true; mkJC "43" "1" true false true; mkJC "53" "1" true false true; mkJC "5B" "1" true false true; mkJC "70" "1" true false true; mkJC "72" "1" true false true; mkJC "75" "2" true false true; mkJC "80" "1" true false true; mkJC "84" "2" true false true; mkJC "86" "2" true false true; mkJC "87" "1" true false true; mkJC "8F" "1" true false true]].
Definition file90 := mkJF "DTHERMZ6" "Danfoss" "0002" ["0248:A010"] "Living Connect Z Thermostat" [[mkJC "00" "1" false false true; mkJC "20" "1" false false true; mkJC "31" "6" true false true; mkJC "43" "1" true false true; mkJC "46" "1" true false true; mkJC "72" "1" true false true; mkJC "75" "2" true false true; mkJC "80" "1" true false true; mkJC "81" "1" true false true; mkJC "84" "2" true false true; mkJC "86" "1" true false true; mkJC "8F" "1" true false true]].
Definition file91 := mkJF "LC-13" "Danfoss" "0002" ["0005:0004"; "8005:0001"; "8005:0002"] "Living Connect Z Thermostat" [[mkJC "00" "1" false false true; mkJC "20" "1" false false true; mkJC "43" "2" false false true; mkJC "72" "1" false false true; mkJC "75" "0" true false true; mkJC "80" "1" false false true; mkJC "81" "0" false false true; mkJC "84" "2" false false true; mkJC "86" "1" false false true; mkJC "8F" "1" false false true; mkJC "9C" "0" false false true]].
Definition file92 := mkJF "LCZ251" "Danfoss" "0002" ["0005:0003"] "Living Connect Z Thermostat 2.51" [[mkJC "00" "1" false false true; mkJC "20" "1" false false true; mkJC "43" "2" false false true; mkJC "72" "1" false false true; mkJC "80" "1" false false true; mkJC "84" "2" false false true; mkJC "86" "1" false false true; mkJC "8F" "1" false false true]].
Definition file93 := mkJF "MT02650" "Danfoss" "0002" ["0005:0175"] "Devolo Thermostat (09356)" [[mkJC "00" "1" true false true; mkJC "20" "1" true false true; mkJC "31" "5" true false true; mkJC "43" "2" true false true; mkJC "56" "0" true false true; mkJC "72" "1" true false true; mkJC "75" "2" true false true; mkJC "80" "1" true false true; mkJC "84" "2" true false true; mkJC "86" "1" true false true; mkJC "8F" "1" true false true]].
Definition file94 := mkJF "MT02646" "Devolo" "0175" ["0001:0011"] "Home Control Metering Plug" [[mkJC "00" "1" false false true; mkJC "20" "1" true false true; mkJC "25" "1" true false true; mkJC "27" "1" true false true; mkJC "32" "3" true false true; mkJC "59" "1" true false true; mkJC "5A" "1" true false true; mkJC "5E" "2" true false true; mkJC "70" "1" true false true; mkJC "71" "1" true false true; mkJC "72" "2" true false true; mkJC "73" "1" true false true; mkJC "75" "2" true false true; mkJC "7A" "2" true false true; mkJC "85" "2" true false true; mkJC "86" "2" true false true; mkJC "98" "1" true false true]].
Definition file95 := mkJF "MT02647" "Devolo" "0175" ["0002:000D"] "Devolo Motion Sensor" [[mkJC "00" "1" false false true; mkJC "20" "1" false false true; mkJC "30" "2" false false true; mkJC "31" "5" false false true; mkJC "62" "1" false false true; mkJC "63" "1" false false true; mkJC "70" "1" false false true; mkJC "71" "1" false false true; mkJC "72" "1" false true true; mkJC "75" "1" false false true; mkJC "76" "1" false false true; mkJC "80" "1" false false true; mkJC "84" "2" false false true; mkJC "85" "1" false false true; mkJC "86" "1" false false true; mkJC "8F" "1" false false true; mkJC "98" "1" false false true]].
Definition file96 := mkJF "MT02648" "Devolo" "0175" ["0002:000E"] "Door/Window Contact" [[mkJC "00" "1" false false true; mkJC "20" "1" false false true; mkJC "30" "2" true false true; mkJC "31" "5" true false true; mkJC "59" "0" true false true; mkJC "5A" "1" true false true; mkJC "5E" "1" true false true; mkJC "70" "1" true false true; mkJC "71" "3" true false true; mkJC "72" "1" true false true; mkJC "73" "1" true false true; mkJC "7A" "0" true false true; mkJC "80" "1" true false true; mkJC "84" "2" true false true; mkJC "85" "1" true false true; mkJC "86" "1" true false true; mkJC "8F" "1" true false true; mkJC "98" "0" true false true]].
Definition file97 := mkJF "MT2652" "Devolo" "0175" ["0100:0101"] "Scene Switch" [[mkJC "00" "1" false false true; mkJC "20" "1" false false true; mkJC "2D" "1" true false true; mkJC "59" "1" true false true; mkJC "5A" "1" true false true; mkJC "5B" "1" true false true; mkJC "5E" "1" true false true; mkJC "70" "1" true false true; mkJC "72" "1" true false true; mkJC "73" "1" true false true; mkJC "80" "1" true false true; mkJC "84" "2" true false true; mkJC "85" "1" true false true; mkJC "86" "2" true false true; mkJC "8E" "1" true false true; mkJC "8F" "1" true false true]].
Definition file98 := mkJF "MT2653" "Devolo" "0175" ["0100:0102"] "Keyfob" [[mkJC "00" "1" false false true; mkJC "20" "1" false false true; mkJC "2D" "0" true false true; mkJC "59" "0" true false true; mkJC "5A" "1" true false true; mkJC "5B" "1" true false true; mkJC "5E" "1" true false true; mkJC "70" "1" true false true; mkJC "72" "1" true false true; mkJC "73" "1" true false true; mkJC "80" "1" true false true; mkJC "84" "2" true false true; mkJC "85" "1" true false true; mkJC "86" "1" true false true; mkJC "8E" "0" true false true; mkJC "8F" "1" true false true]].
Definition file99 := mkJF "MT02755" "Devolo" "0175" ["0002:0020"] "Humidity Sensor" [[mkJC "00" "1" false false true; mkJC "20" "1" false false true; mkJC "30" "2" true false true; mkJC "31" "5" true false true; mkJC "59" "1" true false true; mkJC "5A" "1" true false true; mkJC "5E" "1" true false true; mkJC "70" "1" true false true; mkJC "71" "4" true false true; mkJC "72" "1" true false true; mkJC "73" "1" true false true; mkJC "7A" "1" true false true; mkJC "80" "1" true false true; mkJC "84" "2" true false true; mkJC "85" "2" true false true; mkJC "86" "2" true false true; mkJC "8F" "1" true false true; mkJC "98" "0" true false true]].
Definition file100 := mkJF "MT2756" "Devolo" "0175" ["0002:0021"] "Devolo MT2756 Flood Sensor" [[mkJC "00" "1" false false true; mkJC "20" "1" false false true; mkJC "30" "0" false false true; mkJC "59" "1" true false true; mkJC "5A" "1" true false true; mkJC "5E" "1" true false true; mkJC "72" "1" true false true; mkJC "73" "1" true false true; mkJC "7A" "1" true false true; mkJC "85" "0" false false true; mkJC "86" "2" true false true; mkJC "8F" "1" true false true; mkJC "98" "0" true false true]].
Definition file101 := mkJF "PAN11" "Devolo" "0175" ["0001:0001"] "Smart Energy Plug-in Switch" [[mkJC "00" "1" false false true; mkJC "20" "1" true false true; mkJC "25" "1" true false true; mkJC "27" "1" true false true; mkJC "32" "3" true false true; mkJC "70" "1" true false true; mkJC "72" "1" true false true; mkJC "85" "1" true false true; mkJC "86" "1" true false true]].
Definition file102 := mkJF "ph-pse02" "Devolo" "0175" ["0004:000A"] "Multisound indoor siren (Zipato/Devolo)" [[mkJC "00" "1" false false true; mkJC "20" "1" false false true; mkJC "25" "1" false false true; mkJC "26" "0" false false false; mkJC "30" "2" false false true; mkJC "59" "1" false false true; mkJC "5A" "1" false false true; mkJC "5E" "1" false false true; mkJC "70" "1" false false true; mkJC "71" "4" false false true; mkJC "72" "1" false false true; mkJC "73" "1" false false true; mkJC "7A" "1" false false true; mkJC "85" "2" false false true; mkJC "86" "2" false false true]].
Definition file103 := mkJF "PST02-1B" "Devolo" "0175" ["0002:0018"] "Multisensor" [[mkJC "00" "1" false false true; mkJC "20" "1" false false true; mkJC "30" "2" true false true; mkJC "31" "5" true false true; mkJC "70" "1" false false true; mkJC "72" "1" false false true; mkJC "80" "1" false false true; mkJC "84" "2" false false true; mkJC "85" "2" false false true; mkJC "86" "1" false false true]].
Definition file104 := mkJF "DCH-Z110" "D-Link" "0108" ["0002:000E"] "Door & Window Sensor" [[mkJC "00" "1" false false true; mkJC "20" "1" false false true; mkJC "30" "2" true false true; mkJC "31" "5" true false true; mkJC "59" "0" true false true; mkJC "5A" "1" true false true; mkJC "5E" "1" true false true; mkJC "70" "1" true false true; mkJC "71" "4" true false true; mkJC "72" "1" true false true; mkJC "73" "1" true false true; mkJC "7A" "0" true false true; mkJC "80" "1" true false true; mkJC "84" "2" true false true; mkJC "85" "1" true false true; mkJC "86" "1" true false true; mkJC "8F" "1" true false true; mkJC "98" "0" true false true]].
Definition file105 := mkJF "DCH-Z120" "D-Link" "0108" ["0002:000D"] "Battery Motion Sensor" [[mkJC "00" "1" false false true; mkJC "20" "1" false false true; mkJC "30" "2" true false true; mkJC "31" "5" true false true; mkJC "70" "1" true false true; mkJC "71" "4" true false true; mkJC "72" "1" false false true; mkJC "80" "1" true false true; mkJC "84" "2" true false true; mkJC "85" "1" true false true; mkJC "86" "1" true false true; mkJC "8F" "1" true false true]].
Definition file106 := mkJF "DCH-Z510" "D-Link" "0108" ["0004:000A"] "Siren" [[mkJC "00" "1" false false true; mkJC "20" "1" false false true; mkJC "25" "1" false false true; mkJC "59" "1" true false true; mkJC "5A" "1" true false true; mkJC "5E" "1" true false true; mkJC "70" "0" false false true; mkJC "71" "3" false false false; mkJC "72" "1" true false true; mkJC "73" "1" true false true; mkJC "7A" "2" true false true; mkJC "86" "1" true false true; mkJC "98" "0" true false true]].
Definition file107 := mkJF "ZB22" "Domitech Products, LLC" "020E" ["4C42:3135"] "Smart LED Light Bulb" [[mkJC "00" "1" false false true; mkJC "20" "1" false false true; mkJC "22" "0" false false true; mkJC "26" "1" true false true; mkJC "27" "1" true false true; mkJC "59" "1" true false true; mkJC "5A" "0" true false true; mkJC "5E" "1" true false true; mkJC "70" "1" true false true; mkJC "72" "1" true false true; mkJC "73" "1" true false true; mkJC "7A" "0" true false true; mkJC "85" "1" true false true; mkJC "86" "1" true false true]].
Definition file108 := mkJF "DTA19" "Domitech Products, LLC" "020E" ["4754:3038"; "4C42:3134"; "4C42:3135"] "Smart LED Light" [[mkJC "00" "1" false false true; mkJC "20" "1" false false true; mkJC "26" "1" false false true; mkJC "27" "0" false false true; mkJC "70" "1" false false true; mkJC "72" "1" false false true; mkJC "85" "1" false false true; mkJC "86" "1" false false true]].
Definition file109 := mkJF "PA-100" "Dragon Tech Industrial, Ltd." "0184" ["4447:3031"] "Plug-in On/Off Switch" [[mkJC "00" "1" false false true; mkJC "20" "1" false false true; mkJC "25" "1" true false true; mkJC "27" "1" true false true; mkJC "59" "1" true false true; mkJC "5A" "1" true false true; mkJC "5E" "1" true false true; mkJC "70" "1" true false true; mkJC "72" "1" true false true; mkJC "73" "1" true false true; mkJC "7A" "1" true false true; mkJC "85" "2" true false true; mkJC "86" "2" true false true]].
Definition file110 := mkJF "WD-100" "Dragon Tech Industrial, Ltd." "0184" ["4447:3034"; "4744:3032"] "Wall Dimmer Switch" [[mkJC "00" "1" false false true; mkJC "20" "1" false false true; mkJC "26" "1" true false true; mkJC "27" "1" true false true; mkJC "59" "1" true false true; mkJC "5A" "1" true false true; mkJC "5B" "1" false false true; mkJC "5E" "1" true false true; mkJC "70" "1" true false true; mkJC "72" "1" true false true; mkJC "73" "1" true false true; mkJC "7A" "1" true false true; mkJC "85" "1" true false true; mkJC "86" "1" true false true]].
Definition file111 := mkJF "WS-100" "Dragon Tech Industrial, Ltd." "0184" ["4447:3033"] "Wall On/Off Switch" [[mkJC "00" "1" false false true; mkJC "20" "1" false false true; mkJC "25" "1" true false true; mkJC "27" "1" true false true; mkJC "59" "0" true false true; mkJC "5A" "1" true false true; mkJC "5B" "1" false false true; mkJC "5E" "1" true false true; mkJC "70" "1" true false true; mkJC "72" "1" true false true; mkJC "73" "1" true false true; mkJC "7A" "0" true false true; mkJC "85" "1" true false true; mkJC "86" "1" true false true]].
Definition file112 := mkJF "DWZWAVE2" "Ecolink" "014A" ["0001:0002"; "0004:0002"] "Z-Wave Door/Window Sensor" [[mkJC "00" "1" false false true; mkJC "20" "1" false false true; mkJC "30" "1" false false true; mkJC "70" "1" false false true; mkJC "71" "2" false false true; mkJC "72" "2" false false true; mkJC "80" "1" false false true; mkJC "84" "2" false false true; mkJC "85" "2" false false true; mkJC "86" "2" false false true]].
Definition file113 := mkJF "Ecolink PIR v2.5" "Ecolink" "014A" ["0004:0001"] "Z-Wave PIR Motion Sensor v2.5" [[mkJC "00" "1" false false true; mkJC "20" "1" false false true; mkJC "30" "2" false false true; mkJC "59" "1" false false true; mkJC "5A" "0" false false true; mkJC "5E" "1" false false true; mkJC "70" "1" false false true; mkJC "71" "5" false false true; mkJC "72" "1" false false true; mkJC "73" "1" false false true; mkJC "80" "1" false false true; mkJC "84" "2" false false true; mkJC "85" "2" false false true; mkJC "86" "2" false false true]].
Definition file114 := mkJF "Ecolink PIR" "Ecolink" "014A" ["0001:0001"] "Z-Wave PIR Motion Sensor" [[mkJC "00" "1" false false true; mkJC "20" "1" false false true; mkJC "30" "1" false false true; mkJC "70" "1" false false true; mkJC "71" "1" false false true; mkJC "72" "1" false false true; mkJC "80" "1" false false true; mkJC "84" "2" false false true; mkJC "85" "1" false false true; mkJC "86" "1" false false true]].
Definition file115 := mkJF "TILT-ZWAVE2.5-ECO" "Ecolink" "014A" ["0004:0003"] "Z-wave Plus Gold Plated Reliability Garage Door Tilt Sensor" [[mkJC "00" "1" false false true; mkJC "20" "1" false false true; mkJC "30" "2" true false true; mkJC "59" "1" true false true; mkJC "5A" "0" false false true; mkJC "5E" "1" true false true; mkJC "70" "1" true false true; mkJC "71" "5" true false true; mkJC "72" "1" true false true; mkJC "73" "1" true false true; mkJC "80" "1" true false true; mkJC "84" "2" true false true; mkJC "85" "2" true false true; mkJC "86" "2" true false true]].
Definition file116 := mkJF "TILTZWAVE2" "Ecolink" "014A" ["0001:0003"] "Z-Wave Garage Door Sensor" [[mkJC "00" "1" false false true; mkJC "20" "1" false false true; mkJC "30" "1" false false true; mkJC "70" "1" false false true; mkJC "71" "1" false false true; mkJC "72" "1" false false true; mkJC "80" "1" false false true; mkJC "84" "2" false false true; mkJC "85" "1" false false true; mkJC "86" "1" false false true]].
Definition file117 := mkJF "EBV-105" "EcoNet Controls" "0157" ["0003:0512"] "Wireless Water Shutoff Valve" [[mkJC "00" "1" false false true; mkJC "20" "1" false false true; mkJC "25" "1" false false true; mkJC "27" "1" false false true; mkJC "72" "1" false false true; mkJC "85" "1" false false true; mkJC "86" "1" false false true]].
Definition file118 := mkJF "EV100" "EcoNet Controls" "0157" ["0100:0100"] "Z-Vent ZWave Controlled HVAC Air Register" [[mkJC "00" "1" false false true; mkJC "20" "1" true false true; mkJC "26" "3" true false true; mkJC "72" "1" true false true; mkJC "77" "0" true false true; mkJC "80" "0" true false true; mkJC "86" "1" true false true]].
Definition file119 := mkJF "GR-105N" "EcoNet Controls" "0157" ["0003:0002"] "Z-Wave Motor for water/gas ball valves" [[mkJC "00" "1" false false true; mkJC "20" "1" true false true; mkJC "25" "1" true false true; mkJC "27" "1" true false true; mkJC "59" "1" true false true; mkJC "5A" "0" false false true; mkJC "5E" "1" true false true; mkJC "70" "0" true false true; mkJC "72" "1" true false true; mkJC "73" "1" true false true; mkJC "85" "2" true false true; mkJC "86" "2" true false true]].
Definition file120 := mkJF "DMS01" "Elexa Consumer Products Inc." "021F" ["0003:0088"] "Dome Wireless Siren" [[mkJC "00" "1" false false true; mkJC "20" "1" false false true; mkJC "25" "1" true false true; mkJC "59" "1" true false true; mkJC "5A" "1" true false true; mkJC "5E" "1" true false true; mkJC "70" "1" true false true; mkJC "71" "6" true false true; mkJC "72" "1" true false true; mkJC "73" "1" true false true; mkJC "80" "1" true false true; mkJC "85" "2" true false true; mkJC "86" "2" true false true; mkJC "87" "1" true false true]].
Definition file121 := mkJF "DMS01 Dome Wireless Siren" "Elexa Consumer Products Inc." "021F" ["0003:0088"] "Dome Wireless Z-Wave Plus Siren, Battery Powered with Adjustable Volume Level and Ten Selectable Tones" [[mkJC "00" "1" false false true; mkJC "20" "1" false false true; mkJC "25" "1" true false true; mkJC "59" "1" true false true; mkJC "5A" "1" true false true; mkJC "5E" "1" true false true; mkJC "70" "1" true false true; mkJC "71" "6" true false true; mkJC "72" "1" true false true; mkJC "73" "1" true false true; mkJC "80" "1" true false true; mkJC "85" "2" true false true; mkJC "86" "2" true false true; mkJC "87" "1" true false true]].
Definition file122 := mkJF "Enerwave ZW15S" "Wenzhou MTLC Electric Appliances Co.,Ltd." "011A" ["0101:0102"] "Enerwave ZW15S Binary Switch" [[mkJC "00" "1" false false true; mkJC "20" "1" false false true; mkJC "25" "1" true false true; mkJC "27" "1" true false true; mkJC "70" "1" true false true; mkJC "72" "1" true false true; mkJC "85" "1" true false true; mkJC "86" "1" true false true]; []].
Definition file123 := mkJF "ZW15R " "Wenzhou MTLC Electric Appliances Co.,Ltd." "011A" ["0101:0103"] "Duplex receptacle" [[mkJC "00" "1" false false true; mkJC "20" "1" false false true; mkJC "25" "1" false false true; mkJC "27" "1" false false true; mkJC "70" "1" false false true; mkJC "72" "1" false false true; mkJC "85" "1" false false true; mkJC "86" "1" false false true]].
Definition file124 := mkJF "ZW20R" "Wenzhou MTLC Electric Appliances Co.,Ltd." "011A" ["0101:0603"] "20A Tamper Resistant Duplex Receptacle" [[mkJC "00" "1" false false true; mkJC "20" "1" false false true; mkJC "25" "1" false false true; mkJC "27" "1" false false true; mkJC "70" "1" false false true; mkJC "72" "1" false false true; mkJC "86" "1" false false true]; [mkJC "25" "1" false false false]; [mkJC "25" "1" false false false]].
Definition file125 := mkJF "ZW20RM" "Wenzhou MTLC Electric Appliances Co.,Ltd." "011A" ["0111:0101"] "In-wall Smart Meter  Duplex Receptacle" [[mkJC "00" "1" false false true; mkJC "20" "1" false false true; mkJC "26" "1" true false true; mkJC "27" "1" true false true; mkJC "31" "2" true false true; mkJC "32" "2" true false true; mkJC "70" "1" true false true; mkJC "72" "1" true false true; mkJC "85" "1" true false true; mkJC "86" "1" true false true]].
Definition file126 := mkJF "ZW500D" "Wenzhou MTLC Electric Appliances Co.,Ltd." "011A" ["0102:0201"] "Dimmer" [[mkJC "00" "1" false false true; mkJC "20" "1" false false true; mkJC "26" "2" false false true; mkJC "27" "1" false false true; mkJC "70" "1" false false true; mkJC "72" "1" false false true; mkJC "85" "1" false false true; mkJC "86" "1" false false true]].
Definition file127 := mkJF "ZW500DM" "Wenzhou MTLC Electric Appliances Co.,Ltd." "011A" ["0111:0201"] "In-wall Smart Meter Dimmer Switch" [[mkJC "00" "1" false false true; mkJC "20" "1" false false true; mkJC "25" "1" true false true; mkJC "27" "1" true false true; mkJC "31" "2" true false true; mkJC "32" "2" true false true; mkJC "70" "1" true false true; mkJC "72" "1" true false true; mkJC "85" "1" true false true; mkJC "86" "1" true false true]].
Definition file128 := mkJF "ZWM-RSM1" "Wenzhou MTLC Electric Appliances Co.,Ltd." "011A" ["0111:0605"] "Smart Single Relay Switch Module" [[mkJC "00" "1" false false true; mkJC "20" "1" true false true; mkJC "25" "1" true false true; mkJC "27" "1" true false true; mkJC "59" "1" true false true; mkJC "5A" "1" true false true; mkJC "5E" "1" true false true; mkJC "72" "1" true false true; mkJC "73" "1" true false true; mkJC "85" "2" true false true; mkJC "86" "2" true false true]].
Definition file129 := mkJF "ZWN-333" "Wenzhou MTLC Electric Appliances Co.,Ltd." "011A" ["0101:0104"] "Plug-in Appliance Module" [[mkJC "00" "1" false false true; mkJC "20" "1" false false true; mkJC "25" "1" true false true; mkJC "27" "1" true false true; mkJC "72" "1" true false true; mkJC "86" "1" true false true]].
Definition file130 := mkJF "ZWN-BPC" "Wenzhou MTLC Electric Appliances Co.,Ltd." "011A" ["0601:0901"] "PIR Sensor" [[mkJC "00" "1" false false true; mkJC "20" "1" false false true; mkJC "30" "1" false false true; mkJC "70" "1" false false true; mkJC "72" "1" false false true; mkJC "80" "1" false false true; mkJC "84" "2" false false true; mkJC "85" "1" false false true; mkJC "86" "1" false false true]].
Definition file131 := mkJF "ZWN-RSM1-PLUS" "Wenzhou MTLC Electric Appliances Co.,Ltd." "011A" ["0101:5605"] "Smart Relay Switch Module" [[mkJC "00" "1" false false true; mkJC "20" "1" true false true; mkJC "25" "1" true false true; mkJC "27" "1" true false true; mkJC "70" "1" true false true; mkJC "72" "1" true false true; mkJC "85" "2" true false true; mkJC "86" "2" true false true]].
Definition file132 := mkJF "ZWN-RSM2" "Wenzhou MTLC Electric Appliances Co.,Ltd." "011A" ["0101:5606"] "Smart Dual Relay Switch Module" [[mkJC "00" "1" false false true; mkJC "20" "1" true false true; mkJC "25" "1" true false true; mkJC "27" "1" true false true; mkJC "60" "2" true false true; mkJC "70" "1" true false true; mkJC "72" "1" true false true; mkJC "85" "2" true false true; mkJC "86" "2" true false true; mkJC "8E" "2" true false true]; [mkJC "20" "0" false false true; mkJC "25" "1" false false true]; [mkJC "20" "0" false false true; mkJC "25" "1" false false true]].
Definition file133 := mkJF "ZWN-SC7" "Wenzhou MTLC Electric Appliances Co.,Ltd." "011A" ["0801:0B03"] "Scene Controller" [[mkJC "00" "1" false false true; mkJC "20" "1" false false true; mkJC "2B" "1" false false false; mkJC "72" "1" false false true; mkJC "85" "1" false false true; mkJC "86" "1" false false true]].
Definition file134 := mkJF "CometZ" "Eurotronics" "0148" ["0002:0001"] "Thermostatic Valve" [[mkJC "00" "1" false false true; mkJC "20" "1" true false true; mkJC "26" "3" true false true; mkJC "31" "4" true false true; mkJC "40" "1" true false true; mkJC "43" "1" true false true; mkJC "72" "1" true false true; mkJC "77" "1" true false true; mkJC "80" "1" true false true; mkJC "84" "2" true false true; mkJC "86" "1" true false true]].
Definition file135 := mkJF "StellaZ" "Eurotronics" "0148" ["0001:0001"] "Thermostatic Valve" [[mkJC "00" "1" false false true; mkJC "20" "1" false false true; mkJC "26" "3" false false true; mkJC "30" "0" false false true; mkJC "31" "4" false false true; mkJC "40" "2" false false true; mkJC "43" "2" false false true; mkJC "72" "1" false false true; mkJC "80" "1" false false true; mkJC "84" "2" false false true; mkJC "86" "1" false false true]].
Definition file136 := mkJF "ST812" "Everspring (135)" "0135" ["000B:0001"] "Flood sensor" [[mkJC "00" "1" false false true; mkJC "20" "1" true false true; mkJC "70" "1" true false true; mkJC "72" "1" true false true; mkJC "80" "1" true false true; mkJC "84" "2" true false true; mkJC "85" "1" true false true; mkJC "86" "1" true false true; mkJC "9C" "1" true false true]].
Definition file137 := mkJF "AD130" "Everspring" "0060" ["0003:0001"] "Dimmer Plugin" [[mkJC "00" "1" false false true; mkJC "20" "1" false false true; mkJC "26" "1" true false true; mkJC "27" "1" true false true; mkJC "72" "1" true false true; mkJC "73" "1" true false true; mkJC "75" "1" true false true; mkJC "86" "1" true false true]].
Definition file138 := mkJF "AD131" "Everspring" "0060" ["0003:0001"] "Dimmer Plugin" [[mkJC "00" "1" false false true; mkJC "20" "1" false false true; mkJC "26" "1" true false true; mkJC "27" "1" true false true; mkJC "72" "1" true false true; mkJC "73" "1" true false true; mkJC "75" "1" true false true; mkJC "86" "1" true false true]].
Definition file139 := mkJF "AD146" "Everspring" "0060" ["0003:0002"] "In-Wall Dimmer Module" [[mkJC "00" "1" false false true; mkJC "20" "1" true false true; mkJC "26" "1" true false true; mkJC "27" "1" true false true; mkJC "59" "1" true false true; mkJC "5A" "1" true false true; mkJC "5E" "1" true false true; mkJC "70" "1" true false true; mkJC "71" "3" true false true; mkJC "72" "1" true false true; mkJC "73" "1" true false true; mkJC "7A" "1" true false true; mkJC "85" "1" true false true; mkJC "86" "2" true false true]].
Definition file140 := mkJF "AD147" "Everspring" "0060" ["0003:0003"] "Z-Wave Dimmer Plug" [[mkJC "00" "1" false false true; mkJC "20" "1" false false true; mkJC "26" "1" false false true; mkJC "27" "1" false false true; mkJC "70" "1" false false true; mkJC "71" "1" false false true; mkJC "72" "1" false false true; mkJC "85" "1" false false true; mkJC "86" "1" false false true]].
Definition file141 := mkJF "AN157" "Everspring" "0060" ["0004:0001"; "0104:0001"] "Switch Plugin" [[mkJC "20" "1" false false true; mkJC "25" "1" true false true; mkJC "27" "1" true false true; mkJC "72" "1" true false true; mkJC "73" "1" true false true; mkJC "75" "1" true false true; mkJC "86" "1" true false true]].
Definition file142 := mkJF "AN158" "Everspring" "0060" ["0004:0002"] "Switch Meter Plugin" [[mkJC "00" "1" false false true; mkJC "20" "1" false false true; mkJC "25" "1" false false true; mkJC "27" "1" false false true; mkJC "32" "2" false false true; mkJC "70" "1" false false true; mkJC "71" "1" false false true; mkJC "72" "1" false false true; mkJC "85" "1" false false true; mkJC "86" "1" false false true]].
Definition file143 := mkJF "AN163" "Everspring" "0060" ["0004:0005"] "Metering Power Switch" [[mkJC "00" "1" false false true; mkJC "20" "1" true false true; mkJC "25" "1" true false true; mkJC "27" "1" true false true; mkJC "32" "2" true false true; mkJC "70" "1" true false true; mkJC "71" "1" true false true; mkJC "72" "1" true false true; mkJC "85" "2" true false true; mkJC "86" "1" true false true]].
Definition file144 := mkJF "AN179" "Everspring" "0060" ["0004:0008"; "0011:0002"] "In-Wall Switch Module" [[mkJC "00" "1" false false true; mkJC "20" "1" true false true; mkJC "25" "1" true false true; mkJC "27" "1" true false true; mkJC "59" "1" true false true; mkJC "5A" "1" true false true; mkJC "5E" "1" true false true; mkJC "70" "1" true false true; mkJC "71" "3" true false true; mkJC "72" "1" true false true; mkJC "73" "1" true false true; mkJC "7A" "1" true false true; mkJC "85" "1" true false true; mkJC "86" "2" true false true]].
Definition file145 := mkJF " AN1802" "Everspring" "0060" ["0004:0007"] "Switch without metering" [[mkJC "00" "1" false false true; mkJC "20" "1" true false true; mkJC "25" "1" true false true; mkJC "27" "1" true false true; mkJC "59" "1" true false true; mkJC "5A" "1" true false true; mkJC "5E" "1" true false true; mkJC "70" "1" true false true; mkJC "71" "4" true false true; mkJC "72" "1" true false true; mkJC "73" "1" true false true; mkJC "7A" "1" true false true; mkJC "85" "2" true false true; mkJC "86" "2" true false true]].
Definition file146 := mkJF " AN180" "Everspring" "0060" ["0004:0007"] "Switch without metering" [[mkJC "00" "1" false false true; mkJC "20" "1" true false true; mkJC "25" "1" true false true; mkJC "27" "1" true false true; mkJC "59" "1" true false true; mkJC "5A" "1" true false true; mkJC "5E" "1" true false true; mkJC "70" "1" true false true; mkJC "71" "4" true false true; mkJC "72" "1" true false true; mkJC "73" "1" true false true; mkJC "7A" "1" true false true; mkJC "85" "2" true false true; mkJC "86" "2" true false true]].
Definition file147 := mkJF "AN181" "Everspring" "0060" ["0004:0006"; "0004:0007"] "Mini Plug Switch with Metering (Gen5)" [[mkJC "00" "1" false false true; mkJC "20" "1" true false true; mkJC "22" "1" true false true; mkJC "25" "1" true false true; mkJC "27" "1" true false true; mkJC "32" "3" true false true; mkJC "59" "0" true false true; mkJC "5A" "1" true false true; mkJC "5E" "1" true false true; mkJC "70" "1" true false true; mkJC "71" "3" true false true; mkJC "72" "1" true false true; mkJC "73" "1" true false true; mkJC "7A" "0" true false true; mkJC "85" "1" true false true; mkJC "86" "1" true false true]].
Definition file148 := mkJF "HAC01" "Everspring" "0060" ["0010:0001"] "In-Wall Remote Insert" [[mkJC "00" "1" false false true; mkJC "20" "1" false false true; mkJC "22" "0" false false true; mkJC "25" "1" false false true; mkJC "70" "1" false false true; mkJC "72" "1" false false true; mkJC "85" "1" false false true; mkJC "86" "1" false false true]].
Definition file149 := mkJF "HSM02" "Everspring" "0060" ["0202:0001"; "0002:0002"] "Door/Window Contact" [[mkJC "00" "1" false false true; mkJC "20" "1" false false true; mkJC "30" "1" false false true; mkJC "70" "1" false false true; mkJC "71" "1" false false true; mkJC "72" "1" false false true; mkJC "80" "1" false false true; mkJC "84" "2" false false true; mkJC "85" "1" false false true; mkJC "86" "1" false false true]].
Definition file150 := mkJF "HSP02" "Everspring" "0060" ["0001:0003"] "Motion Detector" [[mkJC "00" "1" false false true; mkJC "20" "1" true false true; mkJC "30" "1" true false true; mkJC "70" "1" true false true; mkJC "71" "1" true false true; mkJC "72" "1" true false true; mkJC "80" "1" true false true; mkJC "84" "2" true false true; mkJC "85" "2" true false true; mkJC "86" "1" true false true]].
Definition file151 := mkJF "SE812" "Everspring" "0060" ["000C:0001"] "Siren" [[mkJC "00" "1" false false true; mkJC "20" "1" false false true; mkJC "25" "1" true false true; mkJC "71" "1" false false true; mkJC "72" "1" true false true; mkJC "80" "1" true false true; mkJC "85" "1" true false true; mkJC "86" "1" true false true]].
Definition file152 := mkJF "SF812" "Everspring" "0060" ["000D:0001"] "Smoke Sensor" [[mkJC "00" "1" false false true; mkJC "20" "1" false false true; mkJC "71" "1" false false true; mkJC "72" "1" false false true; mkJC "80" "1" false false true; mkJC "85" "1" false false true; mkJC "86" "1" false false true; mkJC "9C" "1" false false true]].
Definition file153 := mkJF "SM103" "Everspring" "0060" ["0002:0001"] "Door/Window Contact" [[mkJC "00" "1" false false true; mkJC "20" "1" true false true; mkJC "30" "1" true false true; mkJC "70" "1" true false true; mkJC "71" "1" true false true; mkJC "72" "1" true false true; mkJC "80" "1" true false true; mkJC "84" "1" true false true; mkJC "85" "1" true false true; mkJC "86" "1" true false true]].
Definition file154 := mkJF "SP103" "Everspring" "0060" ["0101:0001"] "Motion Detector" [[mkJC "00" "1" false false true; mkJC "20" "1" false false true; mkJC "30" "1" true false true; mkJC "70" "1" true false true; mkJC "71" "1" true false true; mkJC "72" "1" true false true; mkJC "80" "1" true false true; mkJC "84" "1" true false true; mkJC "85" "1" true false true; mkJC "86" "1" true false true]].
Definition file155 := mkJF "SP814" "Everspring" "0060" ["0001:0002"] "Motion Detector" [[mkJC "00" "1" false false true; mkJC "20" "1" true false true; mkJC "30" "1" true false true; mkJC "70" "1" true false true; mkJC "72" "1" true false true; mkJC "80" "1" true false true; mkJC "84" "2" true false true; mkJC "85" "1" true false true; mkJC "86" "1" true false true]].
Definition file156 := mkJF "ST812" "Everspring" "0060" ["000B:0001"] "Flood Sensor" [[mkJC "00" "1" false false true; mkJC "20" "1" false false true; mkJC "70" "1" false false true; mkJC "71" "1" false false true; mkJC "72" "1" false false true; mkJC "80" "1" false false true; mkJC "84" "2" false false true; mkJC "85" "1" false false true; mkJC "86" "1" false false true; mkJC "9C" "1" false false true]].
Definition file157 := mkJF "ST814" "Everspring" "0060" ["0006:0001"] "Temperature and Humidity Sensor" [[mkJC "00" "1" false false true; mkJC "20" "1" false false true; mkJC "31" "2" false false true; mkJC "60" "2" false false true; mkJC "70" "1" false false true; mkJC "71" "1" false false true; mkJC "72" "1" false false true; mkJC "80" "1" false false true; mkJC "84" "2" false false true; mkJC "85" "1" false false true; mkJC "86" "1" false false true]; [mkJC "20" "0" false false true; mkJC "31" "2" false false true]; [mkJC "20" "0" false false true; mkJC "31" "2" false false true]].
Definition file158 := mkJF "ST815" "Everspring" "0060" ["0007:0001"] "Illumination Sensor" [].
Definition file159 := mkJF "LDM-15W" "Evolve" "0113" ["4450:3030"] "Lamp Module" [[mkJC "00" "1" false false true; mkJC "20" "1" false false true; mkJC "26" "1" true false true; mkJC "27" "1" true false true; mkJC "2B" "1" true false true; mkJC "2C" "1" true false true; mkJC "70" "1" true false true; mkJC "72" "1" true false true; mkJC "73" "1" true false true; mkJC "86" "1" true false true]].
Definition file160 := mkJF "LFM-20" "Evolve" "0113" ["5246:3133"] "" [[mkJC "00" "1" false false true; mkJC "20" "1" false false true; mkJC "25" "1" false false true; mkJC "27" "1" false false true; mkJC "2B" "1" false false true; mkJC "70" "1" false false true; mkJC "72" "1" false false true; mkJC "86" "1" false false true]].
Definition file161 := mkJF "LPM-15" "Evolve" "0113" ["5250:3030"] "Appliance module" [[mkJC "00" "1" false false true; mkJC "20" "1" false false true; mkJC "25" "1" true false true; mkJC "27" "1" true false true; mkJC "2B" "1" true false true; mkJC "2C" "1" true false true; mkJC "70" "1" true false true; mkJC "72" "1" true false true; mkJC "73" "1" true false true; mkJC "75" "1" true false true; mkJC "86" "1" true false true]].
Definition file162 := mkJF "LRM-AS" "Evolve" "0113" ["4457:3034"] "Wall Mounted Dimmer" [[mkJC "00" "1" false false true; mkJC "20" "1" false false true; mkJC "22" "0" false false true; mkJC "25" "0" false false true; mkJC "26" "1" false false true; mkJC "27" "1" false false true; mkJC "2B" "1" false false true; mkJC "30" "0" false false true; mkJC "32" "0" false false true; mkJC "70" "1" false false true; mkJC "71" "0" false false true; mkJC "72" "1" false false true; mkJC "80" "0" false false true; mkJC "86" "1" false false true]].
Definition file163 := mkJF "LSM-15" "Evolve" "0113" ["5257:3533"] "Wall Mounted Switch" [[mkJC "00" "1" false false true; mkJC "20" "1" false false true; mkJC "25" "1" false false true; mkJC "26" "0" false false true; mkJC "27" "1" false false true; mkJC "2B" "1" false false true; mkJC "60" "0" false false true; mkJC "70" "1" false false true; mkJC "72" "1" false false true; mkJC "86" "1" false false true]].
Definition file164 := mkJF "T100" "Evolve" "0113" ["4556:5434"] "Thermostat" [[mkJC "00" "1" false false true; mkJC "20" "1" true false true; mkJC "2B" "1" true false true; mkJC "2C" "1" true false true; mkJC "31" "1" true false true; mkJC "40" "1" true false true; mkJC "42" "1" true false true; mkJC "43" "1" true false true; mkJC "44" "1" true false true; mkJC "45" "1" true false true; mkJC "70" "1" true false true; mkJC "72" "1" true false true; mkJC "73" "1" true false true; mkJC "81" "1" true false true; mkJC "85" "1" true false true; mkJC "86" "1" true false true]].
Definition file165 := mkJF "ARZ" "Fakro" "0085" ["0002:0002"] "Roller Shutter Module" [[mkJC "00" "1" false false true; mkJC "20" "1" false false true; mkJC "25" "1" true false true; mkJC "26" "3" true false true; mkJC "27" "1" true false true; mkJC "72" "1" true false true; mkJC "73" "1" true false true; mkJC "86" "1" true false true]].
Definition file166 := mkJF "ZWS12" "Fakro" "0085" ["0002:0001"; "0003:0001"] "Chain Actuator" [[mkJC "00" "1" false false true; mkJC "20" "1" false false true; mkJC "25" "1" true false true; mkJC "26" "3" true false true; mkJC "27" "1" true false true; mkJC "70" "1" true false true; mkJC "72" "1" true false true; mkJC "73" "1" true false true; mkJC "75" "1" true false true; mkJC "85" "1" true false true; mkJC "86" "1" true false true]].
Definition file167 := mkJF "FGBS001" "Fibargroup" "010F" ["0501:0102"; "0501:1002"; "0501:2002"; "0501:3002"] "Universal Binary Sensor" [[mkJC "20" "1" false false true; mkJC "2B" "0" false false true; mkJC "30" "1" false false true; mkJC "60" "2" false false true; mkJC "70" "1" false false true; mkJC "85" "1" false false true; mkJC "86" "1" false false true]; [mkJC "20" "0" false false true; mkJC "30" "1" false false true; mkJC "9C" "0" false false false]; [mkJC "20" "0" false false true; mkJC "30" "1" false false true; mkJC "9C" "0" false false true]; [mkJC "20" "0" false false true; mkJC "31" "0" false false true]; [mkJC "20" "1" false false true; mkJC "31" "0" false false true]; [mkJC "20" "0" false false true; mkJC "31" "0" false false true]; [mkJC "31" "0" false false true]].
Definition file168 := mkJF "FGGC001" "Fibargroup" "010F" ["0D01:1000"; "0D01:3000"] "Fibaro Swipe Scene Controller" [[mkJC "00" "1" false false true; mkJC "20" "1" false false true; mkJC "56" "1" true false true; mkJC "59" "0" true false true; mkJC "5A" "1" true false true; mkJC "5B" "2" true false true; mkJC "5E" "1" true false true; mkJC "70" "1" true false true; mkJC "72" "1" true false true; mkJC "73" "1" true false true; mkJC "7A" "0" true false true; mkJC "80" "1" true false true; mkJC "84" "2" true false true; mkJC "85" "1" true false true; mkJC "86" "1" true false true; mkJC "8E" "0" true false true; mkJC "98" "0" true false true]].
Definition file169 := mkJF "FGD211" "Fibargroup" "010F" ["0100:0104"; "0100:0106"; "0100:0107"; "0100:0109"; "0100:100A"; "0100:300A"] "Universal Dimmer 500W" [[mkJC "00" "1" false false true; mkJC "20" "1" false false true; mkJC "26" "1" true false true; mkJC "27" "0" true false true; mkJC "70" "1" true false true; mkJC "72" "1" true false true; mkJC "73" "0" true false true; mkJC "85" "1" true false true; mkJC "86" "1" true false true; mkJC "8E" "0" true false true]].
Definition file170 := mkJF "FGD211" "Fibargroup" "010F" ["0100:0104"; "0100:0106"; "0100:0107"; "0100:0109"; "0100:100A"; "0100:300A"] "Universal Dimmer 500W" [[mkJC "00" "1" false false true; mkJC "20" "1" false false true; mkJC "26" "1" true false true; mkJC "27" "1" true false true; mkJC "70" "1" true false true; mkJC "72" "1" true false true; mkJC "73" "1" true false true; mkJC "85" "1" true false true; mkJC "86" "1" true false true; mkJC "8E" "0" true false true]].
Definition file171 := mkJF "FGD211" "Fibargroup" "010F" ["0100:0104"; "0100:0106"; "0100:0107"; "0100:0109"; "0100:100A"; "0100:300A"] "Universal Dimmer 500W" [[mkJC "00" "1" false false true; mkJC "20" "1" false false true; mkJC "26" "1" true false true; mkJC "27" "1" true false true; mkJC "2B" "1" false false false; mkJC "70" "1" true false true; mkJC "72" "1" true false true; mkJC "73" "1" true false true; mkJC "7A" "0" true false true; mkJC "85" "1" true false true; mkJC "86" "1" true false true; mkJC "8E" "0" true false true]].
Definition file172 := mkJF "FGD212" "Fibargroup" "010F" ["0102:1000"; "0102:2000"; "0102:3000"; "0102:4000"] "Dimmer 2" [[mkJC "00" "1" false false true; mkJC "20" "1" false false true; mkJC "22" "1" false false true; mkJC "26" "3" false false true; mkJC "27" "1" false false true; mkJC "2B" "0" false false true; mkJC "31" "4" false false true; mkJC "32" "3" false false true; mkJC "56" "1" false false true; mkJC "59" "0" true false false; mkJC "60" "2" false false true; mkJC "70" "1" false false true; mkJC "71" "1" false false true; mkJC "72" "1" false false true; mkJC "85" "1" false false true; mkJC "86" "1" false false true]; [mkJC "20" "0" false false true; mkJC "26" "3" false false true; mkJC "31" "4" false false true; mkJC "32" "3" false false true; mkJC "59" "0" false false false; mkJC "71" "1" false false true; mkJC "85" "1" false false true; mkJC "86" "1" false false true]; [mkJC "20" "0" false false true; mkJC "26" "3" false false true; mkJC "59" "0" false false false; mkJC "85" "1" false false true; mkJC "86" "1" false false true]].
Definition file173 := mkJF "FGFS101" "Fibargroup" "010F" ["0B00:1001"; "0B00:2001"; "0B00:3001"] "Flood Sensor" [[mkJC "00" "1" false false true; mkJC "20" "1" false false true; mkJC "30" "1" false false true; mkJC "60" "2" false false true; mkJC "70" "1" false false true; mkJC "72" "1" false false true; mkJC "80" "1" false false true; mkJC "85" "1" false false true; mkJC "86" "1" false false true; mkJC "9C" "1" false false true]; [mkJC "20" "0" false false true; mkJC "30" "1" false false true]; [mkJC "20" "0" false false true; mkJC "31" "0" false false true]].
Definition file174 := mkJF "FGFS101" "Fibargroup" "010F" ["0B00:1001"; "0B00:2001"] "Flood Sensor" [[mkJC "00" "1" false false true; mkJC "20" "1" false false true; mkJC "30" "1" true false true; mkJC "60" "2" true false true; mkJC "70" "1" true false true; mkJC "72" "1" true false true; mkJC "80" "1" true false true; mkJC "84" "1" true false true; mkJC "85" "1" true false true; mkJC "86" "1" true false true; mkJC "8E" "1" true false true; mkJC "9C" "1" true false true]; [mkJC "20" "0" false false true; mkJC "30" "1" false false true]; [mkJC "20" "0" false false true; mkJC "31" "0" false false true]].
Definition file175 := mkJF "FGFS101" "Fibargroup" "010F" ["0B00:1001"; "0B00:2001"] "Flood Sensor" [[mkJC "00" "1" false false true; mkJC "20" "1" false false true; mkJC "30" "1" true false true; mkJC "60" "2" true false true; mkJC "70" "1" true false true; mkJC "72" "1" true false true; mkJC "80" "1" true false true; mkJC "84" "1" true false true; mkJC "85" "1" true false true; mkJC "86" "1" true false true; mkJC "8E" "1" true false true; mkJC "9C" "1" true false true]; [mkJC "20" "0" false false true; mkJC "30" "1" false false true]; [mkJC "20" "0" false false true; mkJC "31" "0" false false true]].
Definition file176 := mkJF "FGFS101" "Fibargroup" "010F" ["0B00:1001"; "0B01:1002"; "0B01:2002"] "Flood Sensor" [[mkJC "00" "1" false false true; mkJC "20" "1" true false true; mkJC "22" "1" true false true; mkJC "30" "0" false false true; mkJC "31" "5" true false true; mkJC "56" "1" true false true; mkJC "59" "1" true false true; mkJC "5A" "1" true false true; mkJC "5E" "1" true false true; mkJC "70" "1" true false true; mkJC "71" "3" true false true; mkJC "72" "1" true false true; mkJC "73" "1" true false true; mkJC "7A" "1" true false true; mkJC "80" "1" true false true; mkJC "84" "2" true false true; mkJC "85" "1" true false true; mkJC "86" "1" true false true; mkJC "8E" "0" true false true; mkJC "98" "1" true false true; mkJC "9C" "1" true false true]].
Definition file177 := mkJF "FGK101" "Fibargroup" "010F" ["0700:1000"; "0700:2000"; "0700:3000"] "Door Opening Sensor" [[mkJC "00" "1" false false true; mkJC "20" "1" false false true; mkJC "30" "1" false false true; mkJC "70" "1" false false true; mkJC "72" "1" false false true; mkJC "80" "1" false false true; mkJC "84" "1" false false true; mkJC "85" "1" false false true; mkJC "86" "1" false false true; mkJC "9C" "1" false false true]; [mkJC "20" "0" false false true; mkJC "30" "1" false false true]; [mkJC "20" "0" false false true; mkJC "31" "2" false true false]].
Definition file178 := mkJF "FGK101" "Fibargroup" "010F" ["0701:1001"; "0701:3001"] "Door Opening Sensor" [[mkJC "00" "1" false false true; mkJC "20" "1" false false true; mkJC "22" "1" false false true; mkJC "2B" "1" false false true; mkJC "30" "1" false false true; mkJC "31" "5" true false false; mkJC "56" "1" false false true; mkJC "70" "1" false false true; mkJC "71" "1" false false true; mkJC "72" "1" false false true; mkJC "80" "1" false false true; mkJC "84" "2" false false true; mkJC "85" "1" false false true; mkJC "86" "1" false false true; mkJC "9C" "1" false false true]].
Definition file179 := mkJF "FGKF601" "Fibargroup" "010F" ["1001:1000"] "Keyfob" [[mkJC "00" "1" false false true; mkJC "20" "1" false false true; mkJC "22" "1" false false true; mkJC "56" "1" false false true; mkJC "59" "1" false false true; mkJC "5A" "1" false false true; mkJC "5B" "3" false false true; mkJC "5E" "1" false false true; mkJC "70" "1" false false true; mkJC "72" "1" false false true; mkJC "73" "1" false false true; mkJC "75" "2" false false true; mkJC "7A" "1" false false true; mkJC "80" "1" false false true; mkJC "84" "2" false false true; mkJC "85" "2" false false true; mkJC "86" "2" false false true; mkJC "8E" "3" false false true]].
Definition file180 := mkJF "FGMS001" "Fibargroup" "010F" ["0800:1001"; "0800:2001"; "0800:3001"; "0801:1001"; "0801:2001"] "Motion Sensor" [[mkJC "00" "1" false false true; mkJC "20" "1" false false true; mkJC "30" "1" true false true; mkJC "31" "5" true false true; mkJC "56" "1" true false true; mkJC "70" "1" true false true; mkJC "72" "1" true false true; mkJC "80" "1" true false true; mkJC "84" "1" true false true; mkJC "85" "1" true false true; mkJC "86" "1" true false true; mkJC "8E" "0" true false true; mkJC "8F" "1" true false true; mkJC "9C" "1" true false true]].
Definition file181 := mkJF "FGMS001" "Fibargroup" "010F" ["0801:1001"; "0801:2001"; "0801:3001"; "8800:3001"] "Motion Sensor" [[mkJC "00" "1" false false true; mkJC "20" "1" true false true; mkJC "22" "1" true false true; mkJC "30" "1" true false true; mkJC "31" "7" true false true; mkJC "56" "1" true false true; mkJC "59" "1" true false true; mkJC "5A" "1" true false true; mkJC "5E" "1" true false true; mkJC "70" "1" true false true; mkJC "71" "3" true false true; mkJC "72" "1" true false true; mkJC "73" "1" true false true; mkJC "7A" "1" true false true; mkJC "80" "1" true false true; mkJC "84" "2" true false true; mkJC "85" "1" true false true; mkJC "86" "1" true false true; mkJC "8E" "0" true false true; mkJC "98" "0" true false true; mkJC "9C" "1" true false true]].
Definition file182 := mkJF "FGPB101" "Fibargroup" "010F" ["0F01:1000"; "0F01:2000"; "0F01:3000"; "FB10:1014"] "A real push button (switch) available in several colors." [[mkJC "00" "1" false false true; mkJC "20" "1" false false true; mkJC "56" "1" false false true; mkJC "5B" "1" false false true; mkJC "70" "1" false false true; mkJC "71" "1" false false true; mkJC "72" "1" false false true; mkJC "80" "1" false false true; mkJC "84" "2" false false true; mkJC "85" "1" false false true; mkJC "86" "1" false false true]].
Definition file183 := mkJF "FGR221" "Fibargroup" "010F" ["0300:0104"; "0300:0106"; "0300:0107"; "0300:100A"; "0300:0109"] "Roller Shutter Controller" [[mkJC "00" "1" false false true; mkJC "20" "1" false false true; mkJC "25" "1" true false true; mkJC "26" "3" true false true; mkJC "27" "1" true false true; mkJC "50" "1" true false true; mkJC "70" "1" true false true; mkJC "72" "1" true false true; mkJC "73" "1" true false true; mkJC "85" "1" true false true; mkJC "86" "1" true false true; mkJC "8E" "0" true false true]].
Definition file184 := mkJF "FGRGBW" "Fibargroup" "010F" ["0900:1000"; "0900:2000"; "0900:3000"; "0900:4000"] "RGBW Controller" [[mkJC "00" "1" false false true; mkJC "20" "1" false false true; mkJC "26" "1" false false true; mkJC "27" "1" false false true; mkJC "31" "2" false false true; mkJC "32" "2" false false true; mkJC "33" "1" true false true; mkJC "60" "2" false false true; mkJC "70" "1" false false true; mkJC "72" "1" false false true; mkJC "85" "1" false false true; mkJC "86" "1" false false true]; [mkJC "20" "0" false false true; mkJC "26" "1" false false true]; [mkJC "20" "0" false false true; mkJC "26" "1" false false true]; [mkJC "20" "0" false false true; mkJC "26" "1" false false true]; [mkJC "20" "0" false false true; mkJC "26" "1" false false true]; [mkJC "20" "0" false false true; mkJC "26" "1" false false true]].
Definition file185 := mkJF "FGRM222" "Fibargroup" "010F" ["0301:1001"; "0301:3001"; "0302:1000"] "Roller Shutter" [[mkJC "00" "1" false false true; mkJC "20" "1" false false true; mkJC "25" "1" false false true; mkJC "26" "3" true false true; mkJC "2B" "0" false false true; mkJC "31" "2" false false true; mkJC "32" "2" true false true; mkJC "70" "1" false false true; mkJC "72" "1" false false true; mkJC "73" "1" true false true; mkJC "75" "2" true false true; mkJC "85" "1" false false true; mkJC "86" "1" false false true; mkJC "8E" "1" true false true; mkJC "91" "0" false false true]].
Definition file186 := mkJF "FGRM222" "Fibargroup" "010F" ["0301:1001"; "0302:1000"; "0302:3000"] "Roller Shutter" [[mkJC "00" "1" false false true; mkJC "20" "1" false false true; mkJC "25" "1" true false true; mkJC "26" "3" true false true; mkJC "2B" "0" false false true; mkJC "31" "2" true false true; mkJC "32" "2" true false true; mkJC "70" "1" true false true; mkJC "72" "1" true false true; mkJC "73" "1" true false true; mkJC "75" "2" true false true; mkJC "85" "1" true false true; mkJC "86" "1" true false true; mkJC "8E" "1" true false true; mkJC "91" "0" true false true]].
Definition file187 := mkJF "FGRM222" "Fibaro System" "010F" ["0302:1000"; "0302:3000"] "Roller Shutter" [[mkJC "00" "1" false false true; mkJC "20" "1" false false true; mkJC "25" "1" true false true; mkJC "26" "3" true false true; mkJC "31" "2" true false true; mkJC "32" "2" true false true; mkJC "70" "1" true false true; mkJC "72" "1" true false true; mkJC "73" "1" true false true; mkJC "75" "2" true false true; mkJC "85" "1" true false true; mkJC "86" "1" true false true; mkJC "8E" "1" true false true; mkJC "91" "0" true false true]].
Definition file188 := mkJF "FGS211" "Fibargroup" "010F" ["0400:0102"; "0400:0104"; "0400:0105"; "0400:0106"; "0400:0107"; "0400:0108"; "0400:0109"; "0400:100A"; "0400:300A"; "0402:3002"] "Relay Switch 1x3kW" [[mkJC "00" "1" false false true; mkJC "20" "1" false false true; mkJC "25" "1" false false true; mkJC "60" "2" false false true; mkJC "70" "1" false false true; mkJC "72" "1" false false true; mkJC "85" "1" false false true; mkJC "86" "1" false false true]; [mkJC "20" "0" false false true; mkJC "25" "1" false false true]; [mkJC "20" "0" false false true; mkJC "25" "1" false false true]].
Definition file189 := mkJF "FGS212" "Fibargroup" "010F" ["0401:100A"; "0402:1002"] "Relay Switch 1x2.5kW" [[mkJC "00" "1" false false true; mkJC "20" "1" false false true; mkJC "25" "1" false false true; mkJC "27" "1" false false true; mkJC "60" "2" false false true; mkJC "70" "1" false false true; mkJC "72" "1" false false true; mkJC "84" "0" false false true; mkJC "85" "1" false false true; mkJC "86" "1" false false true; mkJC "87" "0" false false true]; [mkJC "20" "0" false false true; mkJC "25" "1" false false true]; [mkJC "20" "0" false false true; mkJC "25" "1" false false true]].
Definition file190 := mkJF "FGS213" "Fibargroup" "010F" ["0403:1000"; "0403:3000"] "Single Switch 2" [[mkJC "00" "1" false false true; mkJC "20" "1" false false true; mkJC "22" "1" false false true; mkJC "25" "1" false false true; mkJC "31" "4" false false true; mkJC "32" "3" false false true; mkJC "56" "1" false false true; mkJC "59" "1" false false true; mkJC "5A" "1" false false true; mkJC "5B" "1" false false true; mkJC "5E" "1" false false true; mkJC "60" "2" false false true; mkJC "70" "1" false false true; mkJC "71" "5" false false true; mkJC "72" "1" false false true; mkJC "73" "1" false false true; mkJC "75" "2" false false true; mkJC "7A" "1" false false true; mkJC "85" "2" false false true; mkJC "86" "2" false false true; mkJC "8E" "3" false false true]; [mkJC "20" "0" false false true; mkJC "25" "1" false false true; mkJC "32" "3" false false true; mkJC "59" "1" false false true; mkJC "5E" "1" false false true; mkJC "85" "2" false false true; mkJC "86" "2" false false true; mkJC "8E" "3" false false true]; [mkJC "20" "0" false false true; mkJC "25" "1" false false true; mkJC "59" "1" false false true; mkJC "5E" "1" false false true; mkJC "85" "2" false false true; mkJC "86" "2" false false true; mkJC "8E" "3" false false true]].
Definition file191 := mkJF "FGS221" "Fibargroup" "010F" ["0200:0102"; "0200:0103"; "0200:0104"; "0200:0105"; "0200:0106"; "0200:0107"; "0200:0109"; "0200:100A"; "0200:300A"; "0202:3002"] "Double Relay Switch 2x1.5kW" [[mkJC "00" "1" false false true; mkJC "20" "1" false false true; mkJC "25" "1" true false true; mkJC "27" "0" true false true; mkJC "60" "2" true false true; mkJC "70" "1" true false true; mkJC "72" "1" true false true; mkJC "73" "0" true false true; mkJC "85" "1" true false true; mkJC "86" "1" true false true; mkJC "8E" "0" true false true]; [mkJC "20" "0" false false true; mkJC "25" "1" false false true]; [mkJC "20" "0" false false true; mkJC "25" "1" false false true]].
Definition file192 := mkJF "FGS221" "Fibargroup" "010F" ["0200:0102"; "0200:0103"; "0200:0104"; "0200:0105"; "0200:0106"; "0200:0107"; "0200:0109"; "0200:100A"; "0200:300A"; "0202:3002"] "Double Relay Switch 2x1.5kW" [[mkJC "00" "1" false false true; mkJC "20" "1" false false true; mkJC "25" "1" true false true; mkJC "27" "1" true false true; mkJC "60" "2" true false true; mkJC "70" "1" true false true; mkJC "72" "1" true false true; mkJC "73" "1" true false true; mkJC "85" "1" true false true; mkJC "86" "1" true false true; mkJC "8E" "0" true false true]; [mkJC "20" "0" false false true; mkJC "25" "1" false false true]; [mkJC "20" "0" false false true; mkJC "25" "1" false false true]].
Definition file193 := mkJF "FGS221" "Fibargroup" "010F" ["0200:0102"; "0200:0103"; "0200:0104"; "0200:0105"; "0200:0106"; "0200:0107"; "0200:0109"; "0200:100A"; "0200:300A"; "0202:3002"] "Double Relay Switch 2x1.5kW" [[mkJC "00" "1" false false true; mkJC "20" "1" false false true; mkJC "25" "1" false false true; mkJC "60" "2" false false true; mkJC "70" "1" false false true; mkJC "72" "1" false false true; mkJC "84" "0" false false true; mkJC "85" "1" false false true; mkJC "86" "1" false false true]; [mkJC "20" "0" false false true; mkJC "25" "1" false false true]; [mkJC "20" "0" false false true; mkJC "25" "1" false false true]].
Definition file194 := mkJF "FGS222" "Fibargroup" "010F" ["0202:1002"; "0202:4002"] "Double Relay Switch 2x1.5kW" [[mkJC "00" "1" false false true; mkJC "20" "1" false false true; mkJC "25" "1" false false true; mkJC "27" "1" false false true; mkJC "60" "2" false false true; mkJC "70" "1" false false true; mkJC "72" "1" false false true; mkJC "85" "1" false false true; mkJC "86" "1" false false true]; [mkJC "20" "0" false false true; mkJC "25" "1" false false true]; [mkJC "20" "0" false false true; mkJC "25" "1" false false true]].
Definition file195 := mkJF "FGS223" "Fibargroup" "010F" ["0203:1000"; "0203:2000"; "0203:3000"] "Double Switch 2 " [[mkJC "00" "1" false false true; mkJC "20" "1" false true true; mkJC "22" "1" false false true; mkJC "25" "1" false false true; mkJC "32" "3" false false true; mkJC "56" "1" false false true; mkJC "5B" "1" false false true; mkJC "60" "2" false false true; mkJC "70" "1" false false true; mkJC "71" "1" false false true; mkJC "72" "1" false false true; mkJC "85" "1" false false true; mkJC "86" "1" false false true]; [mkJC "20" "0" false true true; mkJC "25" "1" false false true; mkJC "32" "3" false false true; mkJC "85" "1" false false true; mkJC "86" "1" false false true]; [mkJC "20" "0" false true true; mkJC "25" "1" false false true; mkJC "32" "3" false false true; mkJC "85" "1" false false true; mkJC "86" "1" false false true]].
Definition file196 := mkJF "FGSD002" "Fibargroup" "010F" ["0C02:1002"] "Smoke Detector" [[mkJC "00" "1" false false true; mkJC "20" "1" false false true; mkJC "22" "1" true false true; mkJC "31" "5" true false true; mkJC "56" "1" true false true; mkJC "59" "0" true false true; mkJC "5A" "1" true false true; mkJC "5E" "1" true false true; mkJC "70" "1" true false true; mkJC "71" "3" true false true; mkJC "72" "1" true false true; mkJC "73" "1" true false true; mkJC "7A" "0" true false true; mkJC "80" "1" true false true; mkJC "84" "2" true false true; mkJC "85" "1" true false true; mkJC "86" "1" true false true; mkJC "8B" "0" true false true; mkJC "8E" "0" true false true; mkJC "9C" "1" true false true]].
Definition file197 := mkJF "FGSS001" "Fibargroup" "010F" ["0C00:1000"; "0C00:3000"] "Smoke Sensor" [[mkJC "00" "1" false false true; mkJC "20" "1" false false true; mkJC "31" "1" false false true; mkJC "56" "1" false false true; mkJC "70" "1" false false true; mkJC "72" "1" false false true; mkJC "80" "1" false false true; mkJC "84" "1" false false true; mkJC "85" "1" false false true; mkJC "86" "1" false false true; mkJC "8B" "1" false false true; mkJC "9C" "1" false false true]].
Definition file198 := mkJF "FGSS101" "Fibargroup" "010F" ["0C00:1000"] "Smoke Sensor" [].
Definition file199 := mkJF "FGWP101" "Fibargroup" "010F" ["0600:1000"] "Metered Wall Plug Switch" [[mkJC "00" "1" false false true; mkJC "20" "1" false false true; mkJC "25" "1" false false true; mkJC "31" "2" false false true; mkJC "32" "2" false false true; mkJC "70" "1" false false true; mkJC "71" "5" true false true; mkJC "72" "1" false false true; mkJC "85" "1" false false true; mkJC "86" "1" false false true]].
Definition file200 := mkJF "FGWP102" "Fibargroup" "010F" ["0602:1001"] "Metered Wall Plug Switch" [[mkJC "00" "1" false false true; mkJC "20" "1" false false true; mkJC "22" "1" false false true; mkJC "25" "1" false false true; mkJC "31" "5" false false true; mkJC "32" "2" false false true; mkJC "56" "1" false false true; mkJC "70" "1" false false true; mkJC "71" "1" false false true; mkJC "72" "1" false false true; mkJC "85" "1" false false true; mkJC "86" "1" false false true]].
Definition file201 := mkJF "FGWP102" "Fibargroup" "010F" ["0600:1000"] "Metered Wall Plug Switch" [[mkJC "00" "1" false false true; mkJC "20" "1" false false true; mkJC "22" "1" true false true; mkJC "25" "1" false false true; mkJC "31" "5" true false true; mkJC "32" "2" true false true; mkJC "56" "1" true false true; mkJC "59" "1" true false true; mkJC "5A" "1" true false true; mkJC "5E" "1" true false true; mkJC "70" "1" true false true; mkJC "71" "1" true false true; mkJC "72" "1" true false true; mkJC "73" "1" true false true; mkJC "7A" "1" true false true; mkJC "85" "1" true false true; mkJC "86" "1" true false true; mkJC "8E" "3" true false true]].
Definition file202 := mkJF "FGWP102" "Fibargroup" "010F" ["0602:1001"] "Metered Wall Plug Switch" [[mkJC "00" "1" false false true; mkJC "20" "1" false false true; mkJC "22" "1" true false true; mkJC "25" "1" false false true; mkJC "31" "5" true false true; mkJC "32" "2" true false true; mkJC "56" "1" true false true; mkJC "59" "1" true false true; mkJC "5A" "1" true false true; mkJC "5E" "1" true false true; mkJC "70" "1" true false true; mkJC "71" "5" true false true; mkJC "72" "1" true false true; mkJC "73" "1" true false true; mkJC "7A" "1" true false true; mkJC "85" "2" true false true; mkJC "86" "2" true false true; mkJC "8E" "3" true false true; mkJC "98" "0" true false true]].
Definition file203 := mkJF "FGWP102" "Fibargroup" "010F" ["0602:1001"] "Metered Wall Plug Switch" [[mkJC "00" "1" false false true; mkJC "20" "1" false false true; mkJC "22" "1" true false true; mkJC "25" "1" false false true; mkJC "31" "5" true false true; mkJC "32" "2" true false true; mkJC "56" "1" true false true; mkJC "59" "1" true false true; mkJC "5A" "1" true false true; mkJC "5E" "1" true false true; mkJC "70" "1" true false true; mkJC "71" "5" true false true; mkJC "72" "1" true false true; mkJC "73" "1" true false true; mkJC "7A" "1" true false true; mkJC "85" "2" true false true; mkJC "86" "2" true false true; mkJC "8E" "3" true false true; mkJC "98" "0" true false true]].
Definition file204 := mkJF "FGWPE" "Fibaro System" "010F" ["0600:1000"] "Metered Wall Plug Switch" [[mkJC "00" "1" false false true; mkJC "20" "1" false false true; mkJC "25" "1" false false true; mkJC "31" "2" false false true; mkJC "32" "2" false false true; mkJC "70" "1" false false true; mkJC "72" "1" false false true; mkJC "85" "1" false false true; mkJC "86" "1" false false true]].
Definition file205 := mkJF "FGS223" "Fibaro System" "010F" ["0203:1000"] "Double Switch 2 " [[mkJC "00" "1" false false true; mkJC "20" "1" false false true; mkJC "22" "1" false false true; mkJC "25" "1" false false true; mkJC "32" "3" false false true; mkJC "56" "1" false false true; mkJC "5B" "1" false false true; mkJC "60" "2" false false true; mkJC "70" "1" false false true; mkJC "71" "1" false false true; mkJC "72" "1" false false true; mkJC "85" "1" false false true; mkJC "86" "1" false false true]; [mkJC "20" "0" false false true; mkJC "25" "1" false false true; mkJC "32" "3" false false true; mkJC "85" "1" false false true; mkJC "86" "1" false false true]; [mkJC "20" "0" false false true; mkJC "25" "1" false false true; mkJC "32" "3" false false true; mkJC "85" "1" false false true; mkJC "86" "1" false false true]].
Definition file206 := mkJF "Forest Shuttle S/L, Forest Group NL" "Forest Group Nederland B.V" "0207" ["0027:0100"] "Drapery hardware" [[mkJC "00" "1" false false true; mkJC "20" "1" false false true; mkJC "25" "1" true false true; mkJC "26" "3" true false true; mkJC "27" "1" true false true; mkJC "59" "1" true false true; mkJC "5A" "1" true false true; mkJC "5E" "1" true false true; mkJC "72" "1" true false true; mkJC "73" "1" true false true; mkJC "7A" "1" true false true; mkJC "85" "2" true false true; mkJC "86" "2" true false true]].
Definition file207 := mkJF "MIMOlite" "FortrezZ LLC" "0084" ["0451:010E"; "0453:010E"; "0453:010F"; "0453:0110"; "0453:0111"] "Digital or Analog Voltage input and/or Dry Contact				Relay			" [[mkJC "00" "1" false false true; mkJC "20" "1" false false true; mkJC "25" "1" false false true; mkJC "30" "1" false false true; mkJC "31" "1" false false true; mkJC "70" "1" false false true; mkJC "71" "1" false false true; mkJC "72" "1" false false true; mkJC "85" "1" false false true; mkJC "86" "1" false false true]].
Definition file208 := mkJF "SSA1/SSA2" "FortrezZ LLC" "0084" ["0311:010B"; "0313:0108"; "0313:010B"] "Siren and Strobe Alarm" [[mkJC "00" "1" false false true; mkJC "20" "1" false false true; mkJC "22" "1" true false true; mkJC "26" "1" true false true; mkJC "70" "1" true false true; mkJC "71" "2" true false true; mkJC "72" "1" true false true; mkJC "86" "1" true false true]].
Definition file209 := mkJF "WV-01" "FortrezZ LLC" "0084" ["0213:0215"] "Wireless Z-Wave Water Valve" [[mkJC "00" "1" false false true; mkJC "20" "1" false false true; mkJC "22" "1" false false true; mkJC "25" "1" false false true; mkJC "70" "1" false false true; mkJC "71" "1" false false true; mkJC "72" "1" false false true; mkJC "86" "1" false false true]].
Definition file210 := mkJF "WWA-02" "FortrezZ LLC" "0084" ["0061:010C"; "0063:010C"] "Wireless Water and Temperature Alarm" [[mkJC "00" "1" false false true; mkJC "20" "1" false false true; mkJC "31" "1" false false true; mkJC "70" "1" false false true; mkJC "71" "1" false false true; mkJC "72" "1" false false true; mkJC "80" "1" false false true; mkJC "84" "2" false false true; mkJC "85" "1" false false true; mkJC "86" "1" false false true]].
Definition file211 := mkJF "12718" "Jasco Products" "0063" ["5044:3031"] "Smart Dimmer" [[mkJC "00" "1" false false true; mkJC "20" "1" false false true; mkJC "26" "1" true false true; mkJC "27" "1" true false true; mkJC "70" "1" true false true; mkJC "72" "1" true false true; mkJC "73" "1" true false true; mkJC "77" "1" true false true; mkJC "86" "1" true false true]].
Definition file212 := mkJF "12727" "Jasco Products" "0063" ["4952:3033"] "GE 12727 Z-Wave Wireless Lighting Control Smart Toggle Switch" [[mkJC "00" "1" false false true; mkJC "20" "1" false false true; mkJC "25" "1" false false true; mkJC "27" "1" false false true; mkJC "70" "1" false false true; mkJC "72" "1" false false true; mkJC "77" "1" false false true; mkJC "86" "1" false false true]].
Definition file213 := mkJF "12729" "Jasco Products" "0063" ["4944:3033"] "In-Wall Smart Dimmer" [[mkJC "00" "1" false false true; mkJC "20" "1" false false true; mkJC "26" "1" true false true; mkJC "27" "1" true false true; mkJC "70" "1" true false true; mkJC "72" "1" true false true; mkJC "73" "1" true false true; mkJC "77" "1" true false true; mkJC "86" "1" true false true]].
Definition file214 := mkJF "35931" "Jasco Products" "0063" ["4C42:3031"] "Enbrighten 60W Dimmable Light Bulb" [[mkJC "00" "1" false false true; mkJC "20" "1" false false true; mkJC "26" "1" true false true; mkJC "27" "1" true false true; mkJC "59" "1" true false true; mkJC "5A" "1" true false true; mkJC "5E" "1" true false true; mkJC "70" "1" true false true; mkJC "72" "1" true false true; mkJC "73" "1" true false true; mkJC "7A" "1" true false true; mkJC "85" "2" true false true; mkJC "86" "2" true false true]].
Definition file215 := mkJF "45603" "Jasco Products" "0063" ["5052:3031"; "5250:3030"] "Fluorescent Light & Appliance Module" [[mkJC "00" "1" false false true; mkJC "20" "1" false false true; mkJC "25" "1" false false true; mkJC "72" "1" false false true; mkJC "75" "1" false false true; mkJC "86" "1" false false true]].
Definition file216 := mkJF "45604" "Jasco Products" "0063" ["5250:3130"; "4F50:3031"] "Outdoor Lighting Control Module" [[mkJC "00" "1" false false true; mkJC "20" "1" false false true; mkJC "25" "1" true false true; mkJC "27" "1" true false true; mkJC "72" "1" true false true; mkJC "73" "1" true false true; mkJC "75" "1" true false true; mkJC "77" "1" true false true; mkJC "86" "1" true false true]].
Definition file217 := mkJF "45605" "Jasco Products" "0063" ["5252:3530"] "Duplex receptacle" [[mkJC "00" "1" false false true; mkJC "20" "1" false false true; mkJC "25" "1" true false true; mkJC "27" "1" true false true; mkJC "70" "1" true false true; mkJC "72" "1" true false true; mkJC "73" "1" true false true; mkJC "75" "1" true false true; mkJC "77" "1" true false true; mkJC "86" "1" true false true]].
Definition file218 := mkJF "45606" "Jasco Products" "0063" ["4457:3230"] "2-Way Dimmer Switch" [[mkJC "00" "1" false false true; mkJC "20" "1" false false true; mkJC "26" "1" false false true; mkJC "27" "1" false false true; mkJC "70" "1" false false true; mkJC "72" "1" false false true; mkJC "86" "1" false false true]].
Definition file219 := mkJF "45607" "Jasco Products" "0063" ["4457:3033"] "2-Way Dimmer Switch" [[mkJC "00" "1" false false true; mkJC "20" "1" false false true; mkJC "26" "1" true false true; mkJC "27" "1" true false true; mkJC "70" "1" true false true; mkJC "72" "1" true false true; mkJC "73" "1" true false true; mkJC "86" "1" true false true]].
Definition file220 := mkJF "45609" "Jasco Products" "0063" ["5257:3533"; "6363:3533"] "On/Off Relay Switch" [[mkJC "00" "1" false false true; mkJC "20" "1" false false true; mkJC "25" "1" false false true; mkJC "27" "1" false false true; mkJC "70" "1" false false true; mkJC "72" "1" false false true; mkJC "77" "1" false false true; mkJC "86" "1" false false true]].
Definition file221 := mkJF "Enbrighten 60W Bulb" "Jasco Products" "0063" ["4C42:3031"] "Dimmable light bulb" [[mkJC "00" "1" false false true; mkJC "20" "1" false false true; mkJC "26" "1" true false true; mkJC "27" "1" true false true; mkJC "59" "1" true false true; mkJC "5A" "1" true false true; mkJC "5E" "1" true false true; mkJC "70" "1" true false true; mkJC "72" "1" true false true; mkJC "73" "1" true false true; mkJC "7A" "1" true false true; mkJC "85" "2" true false true; mkJC "86" "2" true false true]].
Definition file222 := mkJF "GE 12725" "Jasco Products" "0063" ["4944:3032"] "In-Wall Dimmer" [[mkJC "00" "1" false false true; mkJC "20" "0" false false true; mkJC "26" "1" false false true; mkJC "27" "1" false false true; mkJC "70" "1" false false true; mkJC "72" "1" false false true; mkJC "86" "1" false false true]].
Definition file223 := mkJF "GE 14291 (ZW4005)" "Jasco Products" "0063" ["4952:3036"] "In-Wall Paddle Switch" [[mkJC "00" "1" false false true; mkJC "20" "1" false false true; mkJC "25" "1" true false true; mkJC "27" "1" true false true; mkJC "2B" "1" true false true; mkJC "2C" "1" true false true; mkJC "56" "1" true false true; mkJC "59" "1" true false true; mkJC "5A" "1" true false true; mkJC "5E" "1" true false true; mkJC "70" "1" true false true; mkJC "72" "1" true false true; mkJC "73" "1" true false true; mkJC "7A" "1" true false true; mkJC "85" "2" true false true; mkJC "86" "2" true false true]].
Definition file224 := mkJF "GE 14291 (ZW4005)" "Jasco Products" "0063" ["4952:3036"] "In-Wall Paddle Switch" [[mkJC "00" "1" false false true; mkJC "20" "1" false false true; mkJC "25" "1" true false true; mkJC "27" "1" true false true; mkJC "2B" "1" true false true; mkJC "2C" "1" true false true; mkJC "56" "1" true false true; mkJC "59" "1" true false true; mkJC "5A" "1" true false true; mkJC "5E" "1" true false true; mkJC "70" "1" true false true; mkJC "72" "1" true false true; mkJC "73" "1" true false true; mkJC "7A" "1" true false true; mkJC "85" "2" true false true; mkJC "86" "2" true false true]].
Definition file225 := mkJF "GE 14294 (ZW3005)" "Jasco Products" "0063" ["4944:3038"] "In-Wall Dimmer Switch" [[mkJC "00" "1" false false true; mkJC "20" "1" false false true; mkJC "26" "1" true false true; mkJC "27" "1" true false true; mkJC "56" "1" true false true; mkJC "59" "1" true false true; mkJC "5A" "1" true false true; mkJC "5E" "1" true false true; mkJC "70" "1" true false true; mkJC "72" "1" true false true; mkJC "73" "1" true false true; mkJC "7A" "1" true false true; mkJC "85" "2" true false true; mkJC "86" "2" true false true]].
Definition file226 := mkJF "GE/Jasco 14321" "Jasco Products" "0063" ["4944:3135"] "In-Wall Dimmer" [[mkJC "00" "1" false false true; mkJC "20" "1" false false true; mkJC "26" "2" true false true; mkJC "27" "1" true false true; mkJC "2B" "1" true false true; mkJC "2C" "1" true false true; mkJC "56" "1" true false true; mkJC "59" "1" true false true; mkJC "5A" "1" true false true; mkJC "5E" "1" true false true; mkJC "70" "1" true false true; mkJC "72" "1" true false true; mkJC "73" "1" true false true; mkJC "7A" "1" true false true; mkJC "85" "2" true false true; mkJC "86" "2" true false true]].
Definition file227 := mkJF "GE Plug in Smart Switch" "Jasco Products" "0063" ["5052:3033"] "GE Plug in Smart Switch Zwave Plus" [[mkJC "00" "1" false false true; mkJC "20" "1" false false true; mkJC "25" "1" true false true; mkJC "27" "1" true false true; mkJC "56" "1" true false true; mkJC "59" "1" true false true; mkJC "5A" "1" true false true; mkJC "5E" "1" true false true; mkJC "70" "1" true false true; mkJC "72" "1" true false true; mkJC "73" "1" true false true; mkJC "7A" "1" true false true; mkJC "85" "2" true false true; mkJC "86" "2" true false true]].
Definition file228 := mkJF "Jasco Smart Door Sensor" "Jasco Products" "0063" ["4953:3032"] "Hinge Pin Smart Door Sensor" [[mkJC "00" "1" false false true; mkJC "20" "1" false false true; mkJC "30" "2" true false true; mkJC "59" "1" true false true; mkJC "5A" "1" true false true; mkJC "5E" "1" true false true; mkJC "70" "1" true false true; mkJC "71" "4" true false true; mkJC "72" "1" true false true; mkJC "73" "1" true false true; mkJC "7A" "1" true false true; mkJC "80" "1" true false true; mkJC "84" "2" true false true; mkJC "85" "2" true false true; mkJC "86" "2" true false true]].
Definition file229 := mkJF "Smart Door Sensor" "Jasco Products" "0063" ["4953:3032"] "Hinge Pin Smart Door Sensor" [[mkJC "00" "1" false false true; mkJC "20" "1" false false true; mkJC "30" "2" true false true; mkJC "59" "1" true false true; mkJC "5A" "1" true false true; mkJC "5E" "1" true false true; mkJC "70" "1" true false true; mkJC "71" "4" true false true; mkJC "72" "1" true false true; mkJC "73" "1" true false true; mkJC "7A" "1" true false true; mkJC "80" "1" true false true; mkJC "84" "2" true false true; mkJC "85" "2" true false true; mkJC "86" "2" true false true]].
Definition file230 := mkJF "ZW1001" "Jasco Products" "0063" ["4952:3031"] "Smart Outlet" [[mkJC "00" "1" false false true; mkJC "20" "1" false false true; mkJC "25" "1" false false true; mkJC "27" "1" false false true; mkJC "70" "1" false false true; mkJC "72" "1" false false true; mkJC "77" "1" false false true; mkJC "86" "1" false false true]].
Definition file231 := mkJF "ZW3003, GE 12724" "Jasco Products" "0063" ["4944:3031"] "In-Wall Dimmer" [[mkJC "00" "1" false false true; mkJC "20" "1" false false true; mkJC "26" "1" false false true; mkJC "27" "1" false false true; mkJC "70" "1" false false true; mkJC "72" "1" false false true; mkJC "77" "1" false false true; mkJC "86" "1" false false true]].
Definition file232 := mkJF "ZW3101" "Jasco Products" "0063" ["4450:3030"] "Lamp Module" [[mkJC "00" "1" false false true; mkJC "20" "1" false false true; mkJC "26" "1" true false true; mkJC "27" "1" true false true; mkJC "70" "1" true false true; mkJC "72" "1" true false true; mkJC "73" "1" true false true; mkJC "77" "1" true false true; mkJC "86" "1" true false true]].
Definition file233 := mkJF "ZW4002" "Jasco Products" "0063" ["4944:3034"; "4944:3131"] "In-Wall Smart Fan Control" [[mkJC "00" "1" false false true; mkJC "20" "1" false false true; mkJC "26" "1" false false true; mkJC "27" "1" false false true; mkJC "70" "1" false false true; mkJC "72" "1" false false true; mkJC "86" "1" false false true]].
Definition file234 := mkJF "ZW4005, 12722" "Jasco Products" "0063" ["4952:3032"] "On/Off Relay Switch" [[mkJC "00" "1" false false true; mkJC "20" "1" false false true; mkJC "25" "1" false false true; mkJC "27" "1" false false true; mkJC "70" "1" false false true; mkJC "72" "1" false false true; mkJC "77" "1" false false true; mkJC "86" "1" false false true]].
Definition file235 := mkJF "ZW4101" "Jasco Products" "0063" ["6363:3030"] "Fluorescent Light & Appliance Module" [[mkJC "00" "1" false false true; mkJC "20" "1" false false true; mkJC "25" "1" true false true; mkJC "27" "1" true false true; mkJC "72" "1" true false true; mkJC "73" "1" true false true; mkJC "75" "1" true false true; mkJC "77" "1" true false true; mkJC "86" "1" true false true]].
Definition file236 := mkJF "ZW6302" "Jasco Products" "0063" ["4953:3133"] "Portable Smart Motion Sensor" [[mkJC "00" "1" false false true; mkJC "20" "1" false false true; mkJC "30" "2" false false true; mkJC "70" "1" false false true; mkJC "71" "1" false false true; mkJC "72" "1" false false true; mkJC "80" "1" false false true; mkJC "84" "2" false false true; mkJC "85" "1" false false true; mkJC "86" "1" false false true]].
Definition file237 := mkJF "TD1311" "Good Way Technology Co., Ltd" "0068" ["0000:0010"] "In wall Power Monitor Switch" [[mkJC "00" "1" false false true; mkJC "20" "1" false false true; mkJC "25" "0" false false true; mkJC "27" "1" false false true; mkJC "60" "2" false false true; mkJC "70" "1" false false true; mkJC "72" "1" false false true; mkJC "7A" "1" false false true; mkJC "86" "1" false false true]; [mkJC "20" "0" false false true; mkJC "25" "0" false false true; mkJC "32" "0" false false true]; [mkJC "20" "0" false false true; mkJC "25" "0" false false true; mkJC "32" "0" false false true]].
Definition file238 := mkJF "CSZ1" "Graber" "026E" ["4353:5A31"] "Cellular Shade Radio Z-Wave" [[mkJC "25" "1" false false true; mkJC "26" "3" false false true; mkJC "59" "1" false false true; mkJC "5A" "1" false false true; mkJC "5E" "1" false false true; mkJC "72" "1" false false true; mkJC "73" "1" false false true; mkJC "7A" "1" false false true; mkJC "80" "1" false false true; mkJC "85" "2" false false true; mkJC "86" "2" false false true]].
Definition file239 := mkJF "RSZ1" "Graber" "026E" ["5253:5A31"] "Somfy Motorized Shade" [[mkJC "00" "1" false false true; mkJC "20" "1" false false true; mkJC "25" "1" false false true; mkJC "26" "3" false false true; mkJC "72" "1" false false true; mkJC "80" "1" false false true; mkJC "85" "1" false false true; mkJC "86" "1" false false true]].
Definition file240 := mkJF "GWPN1" "GreenWave Reality Inc." "0099" ["0002:0002"] "Single-socket PowerNode" [[mkJC "00" "1" false false true; mkJC "20" "1" false false true; mkJC "25" "1" false false true; mkJC "27" "0" false false true; mkJC "32" "2" false false true; mkJC "56" "1" false false true; mkJC "60" "2" false false true; mkJC "70" "1" false false true; mkJC "71" "1" false false true; mkJC "72" "1" false false true; mkJC "75" "1" true false true; mkJC "85" "1" false false true; mkJC "86" "1" false false true; mkJC "87" "0" true false true]].
Definition file241 := mkJF "GWPN5" "GreenWave Reality Inc." "0099" ["0003:0003"] "Multi-socket PowerNode (5-plug)" [[mkJC "00" "1" false false true; mkJC "20" "1" false false true; mkJC "25" "1" false false true; mkJC "27" "0" false false true; mkJC "32" "2" false false true; mkJC "56" "1" false false true; mkJC "60" "2" false false true; mkJC "70" "1" false false true; mkJC "71" "1" false false true; mkJC "72" "1" false false true; mkJC "85" "1" false false true; mkJC "86" "1" false false true]; [mkJC "20" "0" false false true; mkJC "25" "1" false false true; mkJC "32" "2" false false true]; [mkJC "20" "0" false false true; mkJC "25" "1" false false true; mkJC "32" "2" false false true]; [mkJC "20" "0" false false true; mkJC "25" "1" false false true; mkJC "32" "2" false false true]; [mkJC "20" "0" false false true; mkJC "25" "1" false false true; mkJC "32" "2" false false true]; [mkJC "20" "0" false false true; mkJC "25" "1" false false true; mkJC "32" "2" false false true]].
Definition file242 := mkJF "GWPN6" "GreenWave Reality Inc." "0099" ["0003:0004"] "Multi-socket PowerNode (6-plug)" [[mkJC "00" "1" false false true; mkJC "20" "1" false false true; mkJC "25" "1" false false true; mkJC "27" "0" false false true; mkJC "32" "2" false false true; mkJC "56" "1" false false true; mkJC "60" "2" false false true; mkJC "70" "1" false false true; mkJC "71" "1" false false true; mkJC "72" "1" false false true; mkJC "85" "1" false false true; mkJC "86" "1" false false true]; [mkJC "20" "0" false false true; mkJC "25" "1" false false true; mkJC "32" "2" false false true]; [mkJC "20" "0" false false true; mkJC "25" "1" false false true; mkJC "32" "2" false false true]; [mkJC "20" "0" false false true; mkJC "25" "1" false false true; mkJC "32" "2" false false true]; [mkJC "20" "0" false false true; mkJC "25" "1" false false true; mkJC "32" "2" false false true]; [mkJC "20" "0" false false true; mkJC "25" "1" false false true; mkJC "32" "2" false false true]; [mkJC "20" "0" false false true; mkJC "25" "1" false false true; mkJC "32" "2" false false true]].
Definition file243 := mkJF "HKZW-SO01" "Hank" "0208" ["0101:0005"] "Smart Plug and Energy Meter with two USB ports" [[mkJC "00" "1" false false true; mkJC "20" "1" false false true; mkJC "25" "1" true false true; mkJC "26" "0" false false true; mkJC "27" "1" true false true; mkJC "2B" "1" true false true; mkJC "2C" "1" true false true; mkJC "32" "3" true false true; mkJC "59" "1" true false true; mkJC "5A" "1" true false true; mkJC "5E" "1" true false true; mkJC "70" "1" true false true; mkJC "72" "1" true false true; mkJC "73" "1" true false true; mkJC "7A" "1" true false true; mkJC "85" "2" true false true; mkJC "86" "2" true false true]].
Definition file244 := mkJF "SCN01" "Hank" "0208" ["0200:0009"] "Scene Controller" [[mkJC "00" "1" false false true; mkJC "20" "1" false false true; mkJC "59" "1" true false true; mkJC "5A" "1" true false true; mkJC "5B" "2" true false true; mkJC "5E" "1" true false true; mkJC "70" "1" true false true; mkJC "72" "1" true false true; mkJC "73" "1" true false true; mkJC "7A" "1" true false true; mkJC "80" "1" true false true; mkJC "84" "2" true false true; mkJC "85" "2" true false true; mkJC "86" "2" true false true]].
Definition file245 := mkJF "SO05" "Hank" "0208" ["0100:000A"] "Smart Plug" [[mkJC "00" "1" false false true; mkJC "20" "1" false false true; mkJC "25" "1" true false true; mkJC "27" "1" true false true; mkJC "2B" "1" true false true; mkJC "2C" "1" true false true; mkJC "32" "3" true false true; mkJC "59" "1" true false true; mkJC "5A" "1" true false true; mkJC "5E" "1" true false true; mkJC "70" "1" true false true; mkJC "72" "1" true false true; mkJC "73" "1" true false true; mkJC "7A" "1" true false true; mkJC "85" "2" true false true; mkJC "86" "2" true false true]].
Definition file246 := mkJF "HS1DS" "Heiman Technology Co. Ltd" "0260" ["0168:0168"] "Door/Window Contact" [[mkJC "00" "1" false false true; mkJC "20" "1" false false true; mkJC "30" "2" true false true; mkJC "59" "1" true false true; mkJC "5A" "1" true false true; mkJC "5E" "1" true false true; mkJC "71" "4" true false true; mkJC "72" "1" true false true; mkJC "73" "1" true false true; mkJC "80" "1" true false true; mkJC "84" "2" true false true; mkJC "85" "2" true false true; mkJC "86" "2" true false true]].
Definition file247 := mkJF "HS1SA" "Heiman Technology Co. Ltd" "0260" ["8002:1000"] "Smoke Detector" [[mkJC "00" "1" false false true; mkJC "20" "1" false false true; mkJC "30" "2" true false true; mkJC "59" "1" true false true; mkJC "5A" "1" true false true; mkJC "5E" "1" true false true; mkJC "71" "4" true false true; mkJC "72" "1" true false true; mkJC "73" "1" true false true; mkJC "80" "1" true false true; mkJC "84" "2" true false true; mkJC "85" "2" true false true; mkJC "86" "2" true false true]].
Definition file248 := mkJF "HS2SK-Z" "Heiman Technology Co. Ltd" "0260" ["8006:1000"] "In-Wall Switch Module" [[mkJC "00" "1" false false true; mkJC "20" "1" false false true; mkJC "25" "1" true false true; mkJC "27" "1" true false true; mkJC "32" "3" true false true; mkJC "59" "1" true false true; mkJC "5A" "1" true false true; mkJC "5E" "1" true false true; mkJC "72" "1" true false true; mkJC "73" "1" true false true; mkJC "85" "2" true false true; mkJC "86" "2" true false true]].
Definition file249 := mkJF "HTP-4S1-FB" "Hogar Controls" "0293" ["0004:0000"] "Four Touch Panel and Power Socket" [[mkJC "00" "1" false false true; mkJC "20" "1" true false true; mkJC "25" "1" false false true; mkJC "27" "1" false false true; mkJC "60" "1" false false true; mkJC "70" "1" false false true; mkJC "72" "1" false false true; mkJC "85" "1" false false true; mkJC "86" "1" false false true]; [mkJC "20" "1" false false true; mkJC "25" "1" false false true]; [mkJC "00" "1" false false true; mkJC "20" "1" false false true; mkJC "25" "1" false false true]; [mkJC "20" "1" false false true; mkJC "25" "1" false false true]; [mkJC "20" "1" false false true; mkJC "25" "0" false false true]].
Definition file250 := mkJF "HTP-4S1-FB" "Hogar Controls" "0293" ["0003:0014"] "Four Touch Panel and Power Socket" [[mkJC "00" "1" false false true; mkJC "20" "1" true false true; mkJC "25" "1" false false true; mkJC "27" "1" false false true; mkJC "60" "1" false false true; mkJC "70" "1" false false true; mkJC "72" "1" false false true; mkJC "85" "1" false false true; mkJC "86" "1" false false true]; [mkJC "20" "1" false false true; mkJC "25" "1" false false true]; [mkJC "00" "1" false false true; mkJC "20" "1" false false true; mkJC "25" "1" false false true]; [mkJC "20" "1" false false true; mkJC "25" "1" false false true]; [mkJC "20" "1" false false true; mkJC "25" "0" false false true]].
Definition file251 := mkJF "EZMotion Express" "Express Controls" "001E" ["0002:0002"; "0002:0001"] "Wireless 3-in-1 Sensor" [[mkJC "00" "1" false false true; mkJC "20" "1" false false true; mkJC "31" "5" true false true; mkJC "70" "1" true false true; mkJC "72" "1" true false true; mkJC "80" "1" true false true; mkJC "84" "2" true false true; mkJC "85" "1" true false true; mkJC "86" "1" true false true]; [mkJC "60" "0" false false false; mkJC "70" "0" false false false; mkJC "72" "0" false false false; mkJC "77" "0" false false false; mkJC "80" "0" false false false; mkJC "84" "0" false false false; mkJC "85" "0" false false false; mkJC "86" "0" false false false]; [mkJC "31" "0" false false false; mkJC "60" "0" false false false; mkJC "70" "0" false false false; mkJC "72" "0" false false false; mkJC "77" "0" false false false; mkJC "80" "0" false false false; mkJC "84" "0" false false false; mkJC "85" "0" false false false; mkJC "86" "0" false false false]; [mkJC "31" "0" false false false; mkJC "60" "0" false false false; mkJC "70" "0" false false false; mkJC "72" "0" false false false; mkJC "77" "0" false false false; mkJC "80" "0" false false false; mkJC "84" "0" false false false; mkJC "85" "0" false false false; mkJC "86" "0" false false false]].
Definition file252 := mkJF "EZMultiPli" "Express Controls" "001E" ["0004:0001"] "Multi Sensor" [[mkJC "00" "1" false false true; mkJC "20" "1" false false true; mkJC "31" "5" false false true; mkJC "33" "1" false false true; mkJC "70" "1" false false true; mkJC "71" "1" false false true; mkJC "72" "1" false false true; mkJC "77" "1" false false true; mkJC "85" "1" false false true; mkJC "86" "1" false false true]].
Definition file253 := mkJF "HS-WD100+" "HomeSeer Technologies" "000C" ["4447:3034"] "Scene Capable Wall Dimmer Switch" [[mkJC "00" "1" false false true; mkJC "20" "1" true false true; mkJC "26" "1" true false true; mkJC "27" "1" true false true; mkJC "2B" "1" false false true; mkJC "59" "1" true false true; mkJC "5A" "1" true false true; mkJC "5B" "1" false false true; mkJC "5E" "1" false false true; mkJC "70" "1" true false true; mkJC "72" "2" true false true; mkJC "73" "1" true false true; mkJC "7A" "2" true false true; mkJC "85" "2" true false true; mkJC "86" "2" true false true]].
Definition file254 := mkJF "HS-WS100+" "HomeSeer Technologies" "000C" ["4447:3033"] "Scene Capable Wall Switch" [[mkJC "00" "1" false false true; mkJC "20" "1" true false true; mkJC "25" "1" true false true; mkJC "27" "1" true false true; mkJC "2B" "1" false false true; mkJC "2C" "1" false false true; mkJC "59" "1" true false true; mkJC "5A" "1" true false true; mkJC "5B" "1" false false true; mkJC "5E" "1" false false true; mkJC "70" "1" true false true; mkJC "72" "1" true false true; mkJC "73" "1" true false true; mkJC "7A" "1" true false true; mkJC "85" "1" true false true; mkJC "86" "1" true false true]].
Definition file255 := mkJF "TH8320ZW" "Honeywell" "0039" ["0011:0001"] "VisionPRO Z-Wave Touchscreen Programmable
				Thermostat
			" [[mkJC "00" "1" false false true; mkJC "20" "1" true false true; mkJC "27" "1" true false true; mkJC "31" "3" true false true; mkJC "40" "2" true false true; mkJC "42" "1" true false true; mkJC "43" "2" true false true; mkJC "44" "2" true false true; mkJC "45" "1" true false true; mkJC "72" "1" true false true; mkJC "85" "1" true false true; mkJC "86" "1" true false true]].
Definition file256 := mkJF "ASR-ZW" "Horstmann Controls Limited" "0059" ["0003:0001"] "Thermostat Receiver" [[mkJC "00" "1" false false true; mkJC "20" "1" false false true; mkJC "25" "1" false false true; mkJC "40" "1" false false true; mkJC "72" "1" false false true; mkJC "86" "1" false false true]].
Definition file257 := mkJF "HRT4-ZW" "Horstmann Controls Limited" "0059" ["0001:0003"] "Battery Powered Wall Thermostat" [[mkJC "00" "1" false false true; mkJC "20" "1" false false true; mkJC "25" "0" false false true; mkJC "31" "1" false false true; mkJC "40" "0" false false true; mkJC "43" "1" false false true; mkJC "70" "1" false false true; mkJC "72" "1" false false true; mkJC "80" "1" false false true; mkJC "84" "2" false false true; mkJC "85" "1" false false true; mkJC "86" "1" false false true]].
Definition file258 := mkJF "SCSC-17" "Horstmann Controls Limited" "0059" ["0004:0001"] "7 Day Room Thermostat" [[mkJC "00" "1" false false true; mkJC "20" "1" false false true; mkJC "25" "0" true false true; mkJC "31" "2" true false true; mkJC "40" "0" false false true; mkJC "42" "1" true false true; mkJC "43" "1" true false true; mkJC "53" "0" true false true; mkJC "70" "1" true false true; mkJC "72" "1" true false true; mkJC "80" "1" true false true; mkJC "84" "2" true false true; mkJC "85" "1" true false true; mkJC "86" "1" true false true; mkJC "8A" "0" false false true]].
Definition file259 := mkJF "SES 302" "Horstmann Controls Limited" "0059" ["000D:0002"] "Temperature sensor" [[mkJC "00" "1" false false true; mkJC "20" "1" false false true; mkJC "31" "5" false false true; mkJC "60" "2" false false true; mkJC "70" "1" false false true; mkJC "72" "1" false false true; mkJC "80" "1" false false true; mkJC "84" "2" false false true; mkJC "85" "1" false false true; mkJC "86" "1" false false true]; [mkJC "20" "0" false false true; mkJC "31" "5" false false true; mkJC "70" "1" false false true; mkJC "72" "1" false false true; mkJC "80" "1" false false true; mkJC "84" "2" false false true; mkJC "85" "1" false false true; mkJC "86" "1" false false true]; [mkJC "20" "0" false false true; mkJC "31" "5" false false true; mkJC "70" "1" false false true; mkJC "85" "1" false false true; mkJC "86" "1" false false true]; [mkJC "20" "0" false false true; mkJC "31" "5" false false true; mkJC "70" "1" false false true; mkJC "85" "1" false false true; mkJC "86" "1" false false true]].
Definition file260 := mkJF "SIR-321" "Horstmann Controls Limited" "0059" ["0010:0001"; "0010:0002"] "RF Countdown Timer" [[mkJC "00" "1" false false true; mkJC "20" "1" false false true; mkJC "25" "1" false false true; mkJC "31" "1" false false true; mkJC "70" "1" false false true; mkJC "72" "1" false false true; mkJC "85" "1" false false true; mkJC "86" "1" false false true]].
Definition file261 := mkJF "SRT323" "Horstmann Controls Limited" "0059" ["0001:0004"] "Secure Z-Wave Room Thermostat" [[mkJC "00" "1" false false true; mkJC "20" "1" false false true; mkJC "31" "1" true false true; mkJC "40" "1" true false true; mkJC "42" "1" true false true; mkJC "43" "1" true false true; mkJC "70" "1" true false true; mkJC "72" "1" true false true; mkJC "80" "1" true false true; mkJC "84" "2" true false true; mkJC "85" "1" true false true; mkJC "86" "1" true false true]].
Definition file262 := mkJF "SSR-302" "Horstmann Controls Limited" "0059" ["0003:0002"] "Two Channel Boiler Actuator" [[mkJC "00" "1" false false true; mkJC "20" "1" false false true; mkJC "25" "1" false false true; mkJC "40" "1" false false true; mkJC "60" "2" false false true; mkJC "72" "1" false false true; mkJC "86" "1" false false true]; [mkJC "20" "0" false false true; mkJC "25" "1" false false true; mkJC "40" "1" false false true]; [mkJC "20" "0" false false true; mkJC "25" "1" false false true; mkJC "40" "1" false false true]].
Definition file263 := mkJF "SWM301" "Horstmann Controls Limited" "0059" ["000F:0001"] "Z-Wave Module for Water Meter" [[mkJC "00" "1" false false true; mkJC "20" "1" false false true; mkJC "31" "1" true false true; mkJC "32" "1" true false true; mkJC "56" "1" true false true; mkJC "70" "1" true false true; mkJC "72" "1" true false true; mkJC "80" "1" true false true; mkJC "84" "2" true false true; mkJC "85" "1" true false true; mkJC "86" "1" true false true; mkJC "9C" "1" true false true]].
Definition file264 := mkJF "IDL-101" "Alphonsus Tech" "0230" ["0003:0001"] "Z-Wave Lock" [[mkJC "00" "1" false false true; mkJC "59" "1" false true false; mkJC "5A" "1" true false true; mkJC "5E" "2" true false true; mkJC "62" "2" false true false; mkJC "63" "1" false true false; mkJC "70" "1" true false true; mkJC "71" "4" false false true; mkJC "72" "2" true false true; mkJC "73" "1" true false true; mkJC "7A" "2" false true false; mkJC "80" "1" true false true; mkJC "85" "2" false true false; mkJC "86" "2" false true false; mkJC "98" "1" true false true]; []].
Definition file265 := mkJF "IDL-101" "Alphonsus Tech" "0230" ["0003:0001"] "Z-Wave Lock" [[mkJC "00" "1" false false true; mkJC "59" "1" false true false; mkJC "5A" "1" true false true; mkJC "5E" "2" true false true; mkJC "62" "2" false true false; mkJC "63" "1" false true false; mkJC "70" "1" true false true; mkJC "71" "4" false false true; mkJC "72" "2" true false true; mkJC "73" "1" true false true; mkJC "7A" "2" false true false; mkJC "80" "1" true false true; mkJC "85" "2" false true false; mkJC "86" "2" false true false; mkJC "98" "1" true false true]; []].
Definition file266 := mkJF "DWZWAVE1" "Ingersoll Rand (was Ecolink)" "011F" ["0001:0002"] "Z-Wave Door/Window Sensor" [[mkJC "00" "1" false false true; mkJC "20" "1" false false true; mkJC "30" "1" true false true; mkJC "70" "1" true false true; mkJC "71" "2" true false true; mkJC "72" "1" true false true; mkJC "80" "1" true false true; mkJC "84" "2" true false true; mkJC "85" "2" true false true; mkJC "86" "1" true false true]].
Definition file267 := mkJF "00110001" "INNOVUS" "0077" ["0011:0001"] "RAone SmartDimmer" [[mkJC "00" "0" false false true; mkJC "20" "1" false false true; mkJC "26" "1" false false false; mkJC "27" "1" false false true; mkJC "28" "1" false false true; mkJC "31" "1" false false true; mkJC "32" "2" false false true; mkJC "70" "1" false false true; mkJC "72" "1" false false true; mkJC "73" "0" false false true; mkJC "75" "1" false false true; mkJC "77" "1" false false true; mkJC "85" "1" false false true]].
Definition file268 := mkJF "SmartDimmer" "INNOVUS" "0077" ["0011:0001"] "RAone SmartDimmer" [[mkJC "00" "0" false false true; mkJC "20" "1" false false true; mkJC "26" "1" false false false; mkJC "27" "1" false false true; mkJC "28" "1" false false true; mkJC "31" "1" false false true; mkJC "32" "2" false false true; mkJC "70" "1" false false true; mkJC "72" "1" false false true; mkJC "73" "0" false false true; mkJC "75" "1" false false true; mkJC "77" "1" false false true; mkJC "85" "1" false false true]].
Definition file269 := mkJF "SmartDimmer" "INNOVUS" "0077" ["0011:0001"] "RAone SmartDimmer" [].
Definition file270 := mkJF "SmartPower" "INNOVUS" "0077" ["0010:0001"] "RAone SmartPower" [[mkJC "00" "1" false false true; mkJC "20" "1" false false true; mkJC "25" "1" true false true; mkJC "27" "1" true false true; mkJC "28" "1" true false true; mkJC "31" "2" true false true; mkJC "32" "1" true false true; mkJC "72" "1" true false true; mkJC "73" "1" true false true; mkJC "75" "1" true false true; mkJC "77" "1" true false true; mkJC "85" "1" true false true; mkJC "86" "1" true false true]].
Definition file271 := mkJF "CA3500" "Intermatic" "0005" ["4341:0600"] "15 Amp Split-Duplex Receptacle" [[mkJC "00" "1" false false true; mkJC "20" "1" false false true; mkJC "26" "1" true false true; mkJC "27" "1" true false true; mkJC "72" "1" true false true; mkJC "73" "1" true false true; mkJC "85" "1" true false true; mkJC "86" "1" true false true; mkJC "91" "0" true false true]].
Definition file272 := mkJF "CA3750" "Intermatic" "0005" ["4341:3750"] "Contactor/Switch" [[mkJC "00" "1" false false true; mkJC "20" "1" false false true; mkJC "25" "1" true false true; mkJC "27" "1" true false true; mkJC "60" "1" true false true; mkJC "72" "1" true false true; mkJC "73" "1" true false true; mkJC "86" "1" true false true; mkJC "91" "0" true false true]].
Definition file273 := mkJF "CA8900" "Intermatic" "0005" ["4341:8900"] "Z-Wave Thermostat" [[mkJC "00" "1" false false true; mkJC "20" "1" false false true; mkJC "31" "1" true false true; mkJC "40" "1" true false true; mkJC "42" "1" true false true; mkJC "43" "1" true false true; mkJC "72" "1" true false true; mkJC "86" "1" true false true; mkJC "87" "1" true false true]].
Definition file274 := mkJF "HA-01C" "Intermatic" "0005" ["0001:0003"] "In-Wall Dual Receptacle" [[mkJC "00" "1" true false true; mkJC "20" "1" true false true; mkJC "25" "1" true false true; mkJC "27" "1" true false true; mkJC "72" "1" true false true; mkJC "86" "1" true false true]].
Definition file275 := mkJF "HA02" "Intermatic" "0005" ["0002:0003"] "Appliance Module" [[mkJC "00" "1" false false true; mkJC "20" "1" true false true; mkJC "25" "1" true false true; mkJC "27" "1" true false true; mkJC "72" "1" true false true; mkJC "86" "1" true false true]].
Definition file276 := mkJF "HA03" "Intermatic" "0005" ["0003:0003"] "Lamp Module" [[mkJC "00" "1" false false true; mkJC "20" "1" true false true; mkJC "26" "1" true false true; mkJC "27" "1" true false true; mkJC "72" "1" true false true; mkJC "86" "1" true false true]].
Definition file277 := mkJF "HA04" "Intermatic" "0005" ["0004:0003"] "Outdoor Module" [[mkJC "00" "1" false false true; mkJC "20" "1" true false true; mkJC "25" "1" true false true; mkJC "27" "1" true false true; mkJC "72" "1" true false true; mkJC "86" "1" true false true]].
Definition file278 := mkJF "HA-04C" "Intermatic" "0005" ["0004:0003"] "Outdoor Module" [[mkJC "00" "1" false false true; mkJC "20" "1" true false true; mkJC "25" "1" true false true; mkJC "27" "1" true false true; mkJC "72" "1" true false true; mkJC "86" "1" true false true]].
Definition file279 := mkJF "HA05" "Intermatic" "0005" ["0005:0003"] "Screw in lamp module" [[mkJC "00" "1" false false true; mkJC "20" "1" false false true; mkJC "25" "1" true false true; mkJC "27" "1" true false true; mkJC "72" "1" true false true; mkJC "86" "1" true false true]].
Definition file280 := mkJF "HA-20" "Intermatic" "0005" ["4841:0020"] "Dimmer Switch" [[mkJC "00" "1" false false true; mkJC "20" "1" false false true; mkJC "26" "1" true false true; mkJC "27" "1" true false true; mkJC "72" "1" true false true; mkJC "73" "1" true false true; mkJC "85" "1" true false true; mkJC "86" "1" true false true]].
Definition file281 := mkJF "CA3000" "Intermatic" "0005" ["4341:3000"] "Wall Switch" [[mkJC "00" "1" false false true; mkJC "20" "1" false false true; mkJC "25" "1" true false true; mkJC "27" "1" true false true; mkJC "72" "1" true false true; mkJC "73" "1" true false true; mkJC "85" "1" true false true; mkJC "86" "1" true false true; mkJC "91" "0" true false true]].
Definition file282 := mkJF "Intermatic CA3500" "Intermatic" "0005" ["4341:0600"] "15 Amp Split-Duplex Receptacle" [[mkJC "00" "1" false false true; mkJC "20" "1" false false true; mkJC "26" "1" true false true; mkJC "27" "1" true false true; mkJC "72" "1" true false true; mkJC "73" "1" true false true; mkJC "85" "1" true false true; mkJC "86" "1" true false true; mkJC "91" "0" true false true]].
Definition file283 := mkJF "ES61" "Kaipule Technology Co., Ltd." "0214" ["0002:0002"] "Smoke Sensor" [[mkJC "00" "1" false false true; mkJC "20" "1" false false true; mkJC "30" "0" true false true; mkJC "59" "1" true false true; mkJC "5A" "1" true false true; mkJC "5E" "1" true false true; mkJC "71" "4" true false true; mkJC "72" "1" true false true; mkJC "73" "1" true false true; mkJC "80" "1" true false true; mkJC "84" "2" true false true; mkJC "85" "2" true false true; mkJC "86" "2" true false true]].
Definition file284 := mkJF "15DC200" "Kichler" "0114" ["B005:3B60"] "200W Design Pro LED Controller" [[mkJC "00" "1" false false true; mkJC "20" "1" true false true; mkJC "25" "1" true false true; mkJC "27" "1" true false true; mkJC "60" "2" true false true; mkJC "70" "1" true false true; mkJC "72" "1" true false true; mkJC "86" "1" true false true; mkJC "8A" "1" true false true; mkJC "8B" "1" true false true; mkJC "8C" "0" true false true]; [mkJC "20" "0" false false true; mkJC "25" "1" false false true]; [mkJC "20" "0" false false true; mkJC "25" "1" false false true]; [mkJC "20" "0" false false true; mkJC "25" "1" false false true]; [mkJC "20" "0" false false true; mkJC "25" "1" false false true]; [mkJC "20" "0" false false true; mkJC "25" "1" false false true]].
Definition file285 := mkJF "914TRL" "Black & Decker" "0090" ["0001:0001"] "Touchpad Electronic Deadbolt" [[mkJC "00" "1" false true true; mkJC "20" "1" false true true; mkJC "4C" "0" false true false; mkJC "4E" "0" false true false; mkJC "62" "1" false true true; mkJC "63" "1" false true true; mkJC "70" "1" false true true; mkJC "71" "1" false true true; mkJC "72" "1" true true true; mkJC "75" "1" false true true; mkJC "76" "1" false false true; mkJC "80" "1" false true true; mkJC "85" "1" false true true; mkJC "86" "1" true true true; mkJC "8B" "0" false true false; mkJC "98" "1" true false true]].
Definition file286 := mkJF "DZ15S" "Leviton" "001D" ["3401:0001"] "Scene Capable Push On/Off" [[mkJC "00" "1" false false true; mkJC "20" "1" true false true; mkJC "25" "1" true false true; mkJC "27" "1" true false true; mkJC "2B" "1" true false true; mkJC "2C" "1" true false true; mkJC "59" "1" true false true; mkJC "5A" "1" true false true; mkJC "5E" "1" true false true; mkJC "70" "1" true false true; mkJC "72" "1" true false true; mkJC "73" "1" true false true; mkJC "7A" "1" true false true; mkJC "82" "0" false false true; mkJC "85" "2" true false true; mkJC "86" "2" true false true]].
Definition file287 := mkJF "DZ6HD" "Leviton" "001D" ["3201:0001"] "600W Dimmer" [[mkJC "00" "1" false false true; mkJC "20" "1" false false true; mkJC "26" "3" false false true; mkJC "27" "1" false false true; mkJC "2B" "1" false false true; mkJC "2C" "1" false false true; mkJC "59" "1" false false true; mkJC "5A" "1" false false true; mkJC "5E" "1" false false true; mkJC "70" "1" false false true; mkJC "72" "1" false false true; mkJC "73" "1" false false true; mkJC "7A" "1" false false true; mkJC "82" "0" false false true; mkJC "85" "2" false false true; mkJC "86" "2" false false true]].
Definition file288 := mkJF "DZMX1-1LZ" "Leviton" "001D" ["1B03:0334"] "Scene Capable Push On/Off" [[mkJC "00" "1" false false true; mkJC "20" "1" false false true; mkJC "26" "1" false false true; mkJC "27" "0" false false true; mkJC "2B" "1" false false true; mkJC "72" "1" false false true; mkJC "86" "1" false false true]].
Definition file289 := mkJF "DZPA1" "Leviton" "001D" ["1A02:0334"; "3601:0001"] "Plug-in Appliance Module" [[mkJC "00" "1" false false true; mkJC "20" "1" false false true; mkJC "25" "1" true false true; mkJC "27" "1" true false true; mkJC "2B" "1" true false true; mkJC "72" "1" true false true; mkJC "77" "1" true false true; mkJC "86" "1" true false true]].
Definition file290 := mkJF "DZPD3-2" "Leviton" "001D" ["3501:0001"] "Plug-In Dimmer" [[mkJC "00" "1" false false true; mkJC "20" "1" true false true; mkJC "26" "3" true false true; mkJC "27" "1" true false true; mkJC "2B" "1" true false true; mkJC "2C" "1" true false true; mkJC "59" "1" true false true; mkJC "5A" "1" true false true; mkJC "5E" "1" true false true; mkJC "70" "1" true false true; mkJC "72" "1" true false true; mkJC "73" "1" true false true; mkJC "7A" "1" true false true; mkJC "85" "2" true false true; mkJC "86" "2" true false true]].
Definition file291 := mkJF "DZPD3" "Leviton" "001D" ["1902:0334"] "Lamp Module" [[mkJC "00" "1" false false true; mkJC "20" "1" false false true; mkJC "26" "1" true false true; mkJC "27" "1" true false true; mkJC "2B" "1" true false true; mkJC "2C" "0" true false true; mkJC "72" "1" true false true; mkJC "73" "1" true false true; mkJC "77" "1" true false true; mkJC "86" "1" true false true; mkJC "91" "0" true false true]].
Definition file292 := mkJF "DZR15" "Leviton" "001D" ["1D04:0334"] "Scene Capable Receptacle" [[mkJC "00" "1" false false true; mkJC "20" "1" false false true; mkJC "25" "1" true false true; mkJC "27" "1" true false true; mkJC "2B" "1" true false true; mkJC "2C" "0" true false true; mkJC "72" "1" true false true; mkJC "73" "1" true false true; mkJC "77" "1" true false true; mkJC "86" "1" true false true; mkJC "91" "0" true false true]].
Definition file293 := mkJF "DZS15" "Leviton" "001D" ["1C02:0334"] "Scene Capable Push On/Off" [[mkJC "00" "1" false false true; mkJC "20" "1" false false true; mkJC "22" "0" false false true; mkJC "25" "1" false false true; mkJC "27" "1" false false true; mkJC "2B" "1" false false true; mkJC "72" "1" false false true; mkJC "77" "1" false false true; mkJC "86" "1" false false true]].
Definition file294 := mkJF "RZP03" "Leviton" "001D" ["0201:0206"] "Scene Capable Plug-In Lamp Dimming Module" [[mkJC "20" "1" false false false; mkJC "26" "1" false false false; mkJC "27" "1" false false false; mkJC "2B" "1" false false false; mkJC "2C" "1" false false false; mkJC "72" "1" false false false; mkJC "73" "1" false false false; mkJC "77" "1" false false false; mkJC "82" "1" false false false; mkJC "85" "1" false false false; mkJC "86" "1" false false false; mkJC "91" "1" false false false]].
Definition file295 := mkJF "VRCS2-MRX" "Leviton" "001D" ["1102:0243"] "Vizia RF + 2-Button Scene Controller with Switches " [[mkJC "00" "1" false false true; mkJC "20" "1" false false true; mkJC "25" "0" false false true; mkJC "2B" "0" false false false; mkJC "2C" "0" false false false; mkJC "72" "1" false false true; mkJC "73" "0" false false true; mkJC "77" "1" false false true; mkJC "82" "1" false false true; mkJC "85" "1" false false true; mkJC "86" "1" false false true; mkJC "91" "1" false false true]].
Definition file296 := mkJF "VRE06" "Leviton" "001D" ["0E01:0334"] "Electronic Low Voltage Scene Capable Dimmer" [[mkJC "00" "1" false false true; mkJC "20" "1" false false true; mkJC "26" "1" true false true; mkJC "27" "1" true false true; mkJC "2B" "1" true false true; mkJC "2C" "1" true false true; mkJC "72" "1" true false true; mkJC "73" "1" true false true; mkJC "77" "1" true false true; mkJC "85" "1" true false true; mkJC "86" "1" true false true; mkJC "91" "0" true false true]].
Definition file297 := mkJF "Leviton VRF01-1LZ" "Leviton" "001D" ["1001:0334"] "Z‑Wave Quiet Fan Speed Control" [[mkJC "00" "1" false false true; mkJC "20" "1" false false true; mkJC "22" "0" false false true; mkJC "26" "1" true false true; mkJC "27" "1" true false true; mkJC "2B" "1" true false true; mkJC "2C" "1" true false true; mkJC "72" "1" true false true; mkJC "73" "1" true false true; mkJC "77" "1" true false true; mkJC "85" "1" true false true; mkJC "86" "1" true false true; mkJC "91" "0" true false true]].
Definition file298 := mkJF "VRF01" "Leviton" "001D" ["1001:0209"; "1001:0334"] "Scene Capable Quiet Fan Speed Control" [[mkJC "00" "1" false false true; mkJC "20" "1" false false true; mkJC "26" "1" true false true; mkJC "27" "1" true false true; mkJC "2B" "1" true false true; mkJC "2C" "1" true false true; mkJC "72" "1" true false true; mkJC "73" "1" true false true; mkJC "77" "1" true false true; mkJC "85" "1" true false true; mkJC "86" "1" true false true; mkJC "91" "0" true false true]].
Definition file299 := mkJF "VRI06" "Leviton" "001D" ["0401:0209"; "0401:0334"] "Incandescent Scene Capable Dimmer" [[mkJC "00" "1" false false true; mkJC "20" "1" false false true; mkJC "26" "1" false false true; mkJC "27" "1" false false true; mkJC "2B" "1" false false true; mkJC "2C" "1" false false true; mkJC "53" "1" false false true; mkJC "72" "1" false false true; mkJC "73" "1" false false true; mkJC "77" "1" false false true; mkJC "82" "1" false false true; mkJC "85" "1" false false true; mkJC "86" "1" false false true; mkJC "91" "1" false false true]].
Definition file300 := mkJF "VRMX1-1LZ" "Leviton" "001D" ["0602:0334"] "Scene Capable Push On/Off Dimmer" [[mkJC "00" "1" false false true; mkJC "20" "1" false false true; mkJC "26" "1" true false true; mkJC "27" "1" true false true; mkJC "2B" "1" true false true; mkJC "2C" "1" true false true; mkJC "30" "0" false false true; mkJC "72" "1" true false true; mkJC "73" "1" true false true; mkJC "77" "1" true false true; mkJC "85" "1" true false true; mkJC "86" "1" true false true; mkJC "91" "0" true false true]].
Definition file301 := mkJF "VRP03" "Leviton" "001D" ["0202:030B"] "300W Scene Capable Plug-In Lamp Dimming Module" [[mkJC "00" "1" false false true; mkJC "20" "1" false false true; mkJC "26" "1" false false true; mkJC "27" "1" false false true; mkJC "2B" "1" false false true; mkJC "2C" "1" false false true; mkJC "72" "1" false false true; mkJC "73" "1" false false true; mkJC "77" "1" false false true; mkJC "82" "1" false false true; mkJC "85" "1" false false true; mkJC "86" "1" false false true; mkJC "91" "1" false false true; mkJC "EF" "1" false false true]].
Definition file302 := mkJF "VRPA1" "Leviton" "001D" ["1805:0334"] "Vizia RF + Scene Capable Plug-in Module" [[mkJC "00" "1" false false true; mkJC "20" "1" false false true; mkJC "25" "1" false false true; mkJC "27" "1" false false true; mkJC "2B" "1" false false true; mkJC "2C" "1" false false true; mkJC "72" "1" false false true; mkJC "73" "1" false false true; mkJC "77" "1" false false true; mkJC "85" "1" false false true; mkJC "86" "1" false false true]].
Definition file303 := mkJF "VRPD3" "Leviton" "001D" ["1706:0334"] "Scene Capable Plug-in Dimmer" [[mkJC "00" "1" false false true; mkJC "20" "1" false false true; mkJC "22" "0" false false true; mkJC "26" "1" false false true; mkJC "27" "0" false false true; mkJC "2B" "1" false false true; mkJC "32" "0" false false true; mkJC "72" "1" false false true; mkJC "85" "1" false false true; mkJC "86" "1" false false true]].
Definition file304 := mkJF "VRS05" "Leviton" "001D" ["0F01:0209"] "Scene Capable Switch" [[mkJC "20" "1" false false false; mkJC "25" "1" false false false; mkJC "27" "1" false false false; mkJC "2B" "1" false false false; mkJC "2C" "1" false false false; mkJC "72" "1" false false false; mkJC "73" "1" false false false; mkJC "77" "1" false false false; mkJC "82" "1" false false false; mkJC "85" "1" false false false; mkJC "86" "1" false false false; mkJC "91" "1" false false false]].
Definition file305 := mkJF "VRS15" "Leviton" "001D" ["0301:0209"; "0301:0334"] "Scene Capable Push On/Off" [[mkJC "00" "1" false false true; mkJC "20" "1" false false true; mkJC "25" "1" true false true; mkJC "27" "1" true false true; mkJC "2B" "1" true false true; mkJC "2C" "1" true false true; mkJC "72" "1" true false true; mkJC "73" "1" true false true; mkJC "77" "1" true false true; mkJC "85" "1" true false true; mkJC "86" "1" true false true; mkJC "91" "0" true false true]].
Definition file306 := mkJF "FS20Z" "Linear Corp" "014F" ["5246:3133"] "Isolated Contact Fixture Module" [[mkJC "00" "1" false false true; mkJC "20" "1" false false true; mkJC "25" "1" false false true; mkJC "2B" "1" false false true; mkJC "70" "1" false false true; mkJC "72" "1" false false true; mkJC "86" "1" false false true]].
Definition file307 := mkJF "GB00Z" "Linear Corp" "014F" ["4742:3030"] "Glass Break Detector" [[mkJC "00" "1" false false true; mkJC "20" "1" true false true; mkJC "5A" "1" true false true; mkJC "72" "1" true false true; mkJC "80" "1" true false true; mkJC "82" "1" true false true; mkJC "84" "2" true false true; mkJC "85" "1" true false true; mkJC "86" "1" true false true; mkJC "87" "1" true false true; mkJC "9C" "1" true false true]].
Definition file308 := mkJF "LB60Z-1" "Linear Corp" "014F" ["4754:3038"] "Dimmable LED Light Bulb" [[mkJC "00" "1" false false true; mkJC "20" "1" false false true; mkJC "25" "1" true false false; mkJC "26" "1" true false true; mkJC "27" "1" true false true; mkJC "59" "0" true false true; mkJC "5A" "1" true false true; mkJC "5E" "1" true false true; mkJC "70" "1" true false true; mkJC "72" "1" true false true; mkJC "73" "1" true false true; mkJC "7A" "0" true false true; mkJC "85" "1" true false true; mkJC "86" "1" true false true]].
Definition file309 := mkJF "NGD00Z-4" "Linear Corp" "014F" ["4744:3030"; "4744:3530"] "Garage Door Controller" [[mkJC "00" "1" false false true; mkJC "20" "1" false false true; mkJC "5A" "1" false false true; mkJC "66" "1" false true false; mkJC "71" "4" false true false; mkJC "72" "1" false false true; mkJC "86" "1" false false true]].
Definition file310 := mkJF "PD300Z-2" "Linear Corp" "014F" ["4450:3030"] "Plug-in Wall Dimmer" [[mkJC "00" "1" false false true; mkJC "20" "1" false false true; mkJC "26" "1" true false true; mkJC "27" "1" true false true; mkJC "2B" "1" true false true; mkJC "2C" "0" true false true; mkJC "70" "1" true false true; mkJC "72" "1" true false true; mkJC "73" "1" true false true; mkJC "86" "1" true false true]].
Definition file311 := mkJF "PS15Z" "Linear Corp" "014F" ["5250:3030"] "Plug-In Appliance Module" [[mkJC "00" "1" false false true; mkJC "20" "1" false false true; mkJC "25" "1" true false true; mkJC "27" "1" true false true; mkJC "2B" "1" true false true; mkJC "2C" "1" true false true; mkJC "70" "1" true false true; mkJC "72" "1" true false true; mkJC "73" "1" true false true; mkJC "75" "1" true false true; mkJC "86" "1" true false true]].
Definition file312 := mkJF "TBZ48" "Linear Corp" "014F" ["5442:5431"] "Thermostat" [[mkJC "00" "1" false false true; mkJC "20" "1" false false true; mkJC "2B" "1" true false true; mkJC "2C" "1" true false true; mkJC "31" "1" true false true; mkJC "40" "1" true false true; mkJC "42" "1" true false true; mkJC "43" "1" true false true; mkJC "44" "1" true false true; mkJC "45" "1" true false true; mkJC "70" "1" true false true; mkJC "72" "1" true false true; mkJC "73" "1" true false true; mkJC "80" "1" true false true; mkJC "81" "1" true false true; mkJC "85" "1" true false true; mkJC "86" "1" true false true; mkJC "8F" "1" true false true]].
Definition file313 := mkJF "WA105DBZ-1" "Linear Corp" "014F" ["2009:0903"] "Siren & Strobe" [[mkJC "00" "1" false false true; mkJC "20" "1" false false true; mkJC "25" "1" true false true; mkJC "70" "1" true false true; mkJC "72" "1" true false true; mkJC "86" "1" true false true]].
Definition file314 := mkJF "WA105DBZ" "Linear Corp" "014F" ["2005:0503"; "2009:0903"] "Siren" [[mkJC "00" "1" false false true; mkJC "20" "1" false false true; mkJC "25" "1" false false true; mkJC "70" "1" false false true; mkJC "72" "1" false false true; mkJC "80" "1" false false true; mkJC "86" "1" false false true]].
Definition file315 := mkJF "WADWAZ-1" "Linear Corp" "014F" ["2001:0102"] "Door/Windows Sensor" [[mkJC "00" "1" false false true; mkJC "20" "1" false false true; mkJC "30" "1" false false true; mkJC "71" "1" false false true; mkJC "72" "1" false false true; mkJC "80" "1" false false true; mkJC "84" "2" false false true; mkJC "85" "1" false false true; mkJC "86" "1" false false true]].
Definition file316 := mkJF "WAPIRZ-1" "Linear Corp" "014F" ["2002:0203"] "PIR Motion Detector" [[mkJC "00" "1" false false true; mkJC "20" "1" false false true; mkJC "30" "1" false false true; mkJC "31" "4" false false true; mkJC "70" "1" false false true; mkJC "71" "1" false false true; mkJC "72" "1" false false true; mkJC "80" "1" false false true; mkJC "84" "2" false false true; mkJC "85" "1" false false true; mkJC "86" "1" false false true]].
Definition file317 := mkJF "WD500Z-1" "Linear Corp" "014F" ["4457:3034"] "Wall Dimmer Switch" [[mkJC "00" "1" false false true; mkJC "20" "1" false false true; mkJC "26" "1" true false true; mkJC "27" "1" true false true; mkJC "2B" "1" true false true; mkJC "2C" "0" true false true; mkJC "70" "1" true false true; mkJC "72" "1" true false true; mkJC "73" "1" true false true; mkJC "86" "1" true false true]].
Definition file318 := mkJF "WO15Z" "Linear Corp" "014F" ["5252:3530"] "Single Wall Outlet" [[mkJC "00" "1" false false true; mkJC "20" "1" false false true; mkJC "25" "1" true false true; mkJC "27" "1" true false true; mkJC "2B" "1" true false true; mkJC "2C" "0" true false true; mkJC "70" "1" true false true; mkJC "72" "1" true false true; mkJC "73" "1" true false true; mkJC "75" "1" true false true; mkJC "86" "1" true false true]].
Definition file319 := mkJF "WS15Z-1" "Linear Corp" "014F" ["5257:3533"] "Wall Mounted Switch" [[mkJC "00" "1" false false true; mkJC "20" "1" false false true; mkJC "22" "0" false false true; mkJC "25" "1" false false true; mkJC "26" "0" false false true; mkJC "27" "1" false false true; mkJC "2B" "1" false false true; mkJC "70" "1" false false true; mkJC "72" "1" false false true; mkJC "80" "0" false false true; mkJC "86" "1" false false true]].
Definition file320 := mkJF "WT00Z-1" "Linear Corp" "014F" ["5457:3033"] "3-Way Wall Accessory Switch" [].
Definition file321 := mkJF "ZHC5010" "Logic Home Control" "0234" ["0002:010A"; "0003:010A"] "FUGA Wall 4-way Switch with LED + Relay" [[mkJC "00" "1" false false true; mkJC "20" "1" false false true; mkJC "25" "1" true false true; mkJC "26" "3" true false true; mkJC "28" "1" true false true; mkJC "59" "1" true false true; mkJC "5A" "1" true false true; mkJC "5B" "2" true false true; mkJC "5E" "1" true false true; mkJC "60" "2" true false true; mkJC "70" "1" true false true; mkJC "72" "1" true false true; mkJC "73" "1" true false true; mkJC "7A" "1" true false true; mkJC "85" "2" true false true; mkJC "86" "2" true false true; mkJC "87" "1" true false true; mkJC "8E" "3" true false true]; [mkJC "20" "0" false false true; mkJC "25" "1" false false true; mkJC "26" "3" false false true; mkJC "28" "1" false false true; mkJC "59" "1" false false true; mkJC "5E" "1" false false true; mkJC "85" "2" false false true; mkJC "87" "1" false false true; mkJC "8E" "3" false false true]; [mkJC "20" "0" false false true; mkJC "25" "1" false false true; mkJC "26" "3" false false true; mkJC "28" "1" false false true; mkJC "59" "1" false false true; mkJC "5E" "1" false false true; mkJC "85" "2" false false true; mkJC "87" "1" false false true; mkJC "8E" "3" false false true]; [mkJC "20" "0" false false true; mkJC "25" "1" false false true; mkJC "26" "3" false false true; mkJC "28" "1" false false true; mkJC "59" "1" false false true; mkJC "5E" "1" false false true; mkJC "85" "2" false false true; mkJC "87" "1" false false true; mkJC "8E" "3" false false true]; [mkJC "20" "0" false false true; mkJC "25" "1" false false true; mkJC "26" "3" false false true; mkJC "28" "1" false false true; mkJC "59" "1" false false true; mkJC "5E" "1" false false true; mkJC "85" "2" false false true; mkJC "87" "1" false false true; mkJC "8E" "3" false false true]].
Definition file322 := mkJF "ZHC5010" "Logic Home Control" "0234" ["0002:010A"; "0003:010A"] "FUGA Wall 4-way Switch with LED + Relay" [[mkJC "00" "1" false false true; mkJC "20" "1" false false true; mkJC "25" "1" true false true; mkJC "26" "3" true false true; mkJC "28" "1" true false true; mkJC "59" "1" true false true; mkJC "5A" "1" true false true; mkJC "5B" "2" true false true; mkJC "5E" "1" true false true; mkJC "60" "2" true false true; mkJC "70" "1" true false true; mkJC "72" "1" true false true; mkJC "73" "1" true false true; mkJC "7A" "1" true false true; mkJC "85" "2" true false true; mkJC "86" "2" true false true; mkJC "87" "1" true false true; mkJC "8E" "3" true false true]; [mkJC "20" "0" false false true; mkJC "25" "1" false false true; mkJC "26" "3" false false true; mkJC "28" "1" false false true; mkJC "59" "1" false false true; mkJC "5E" "1" false false true; mkJC "85" "2" false false true; mkJC "87" "1" false false true; mkJC "8E" "3" false false true]; [mkJC "20" "0" false false true; mkJC "25" "1" false false true; mkJC "26" "3" false false true; mkJC "28" "1" false false true; mkJC "59" "1" false false true; mkJC "5E" "1" false false true; mkJC "85" "2" false false true; mkJC "87" "1" false false true; mkJC "8E" "3" false false true]; [mkJC "20" "0" false false true; mkJC "25" "1" false false true; mkJC "26" "3" false false true; mkJC "28" "1" false false true; mkJC "59" "1" false false true; mkJC "5E" "1" false false true; mkJC "85" "2" false false true; mkJC "87" "1" false false true; mkJC "8E" "3" false false true]; [mkJC "20" "0" false false true; mkJC "25" "1" false false true; mkJC "26" "3" false false true; mkJC "28" "1" false false true; mkJC "59" "1" false false true; mkJC "5E" "1" false false true; mkJC "85" "2" false false true; mkJC "87" "1" false false true; mkJC "8E" "3" false false true]].
Definition file323 := mkJF "MH3700-HP" "McoHome Technology Co., Ltd" "015F" ["0000:0000"] "Programmable Thermostat" [].
Definition file324 := mkJF "MH9-CO2-WD" "McoHome Technology Co., Ltd" "015F" ["0905:0201"] "CO2 Monitor Air quality detector" [[mkJC "31" "5" false false true; mkJC "70" "1" false false true; mkJC "71" "4" false false true; mkJC "72" "1" false false true; mkJC "85" "1" false false true; mkJC "86" "1" false false true; mkJC "9E" "1" false false true]].
Definition file325 := mkJF "MCO_TPS412" "McoHome Technology Co., Ltd" "015F" ["4121:1302"] "Touch Panel Switch 2 Channel" [[mkJC "00" "1" false false true; mkJC "20" "1" false false true; mkJC "25" "1" false false true; mkJC "27" "1" false false true; mkJC "60" "2" false false true; mkJC "70" "1" false false true; mkJC "72" "1" false false true; mkJC "85" "2" false false true; mkJC "86" "1" false false true; mkJC "8E" "2" false false true]; [mkJC "20" "0" false false true; mkJC "25" "1" false false true]; [mkJC "20" "0" false false true; mkJC "25" "1" false false true]].
Definition file326 := mkJF "MH10-PM2.5-WA" "McoHome Technology Co., Ltd" "015F" ["0A05:0100"; "0A05:0201"] "PM2.5 Monitor" [[mkJC "00" "1" false false true; mkJC "20" "0" false false true; mkJC "31" "5" false false true; mkJC "72" "1" false false true; mkJC "85" "1" false false true; mkJC "86" "1" false false true]].
Definition file327 := mkJF "MH7" "McoHome Technology Co., Ltd" "015F" ["0702:3102"; "0702:5102"] "Water/Electrical Heating Thermostat" [[mkJC "00" "1" false false true; mkJC "20" "1" false false true; mkJC "31" "5" true false true; mkJC "40" "1" true false true; mkJC "42" "1" true false true; mkJC "43" "1" true false true; mkJC "72" "1" true false true; mkJC "85" "1" true false true; mkJC "86" "1" true false true]].
Definition file328 := mkJF "MH8-FC" "McoHome Technology Co., Ltd" "015F" ["0801:3102"] "Fan Coil Thermostat" [[mkJC "00" "1" false false true; mkJC "20" "1" false false true; mkJC "31" "5" true false true; mkJC "40" "1" true false true; mkJC "42" "1" true false true; mkJC "43" "1" true false true; mkJC "44" "1" true false true; mkJC "45" "1" true false true; mkJC "72" "1" true false true; mkJC "85" "1" true false true; mkJC "86" "1" true false true]].
Definition file329 := mkJF "MH9-CO2-WD" "McoHome Technology Co., Ltd" "015F" ["0905:0201"] "CO2 Monitor Air quality detector" [[mkJC "31" "5" false false true; mkJC "70" "1" false false true; mkJC "71" "4" false false true; mkJC "72" "1" false false true; mkJC "85" "1" false false true; mkJC "86" "1" false false true; mkJC "9E" "1" false false true]].
Definition file330 := mkJF "MH-S312" "McoHome Technology Co., Ltd" "015F" ["3102:0202"] "Two Way Switch" [[mkJC "00" "1" false false true; mkJC "20" "1" false false true; mkJC "25" "1" true false true; mkJC "27" "1" true false true; mkJC "60" "2" true false true; mkJC "70" "0" true false true; mkJC "72" "1" true false true; mkJC "85" "1" true false true; mkJC "86" "1" true false true; mkJC "8E" "1" true false true]; [mkJC "20" "0" false false true; mkJC "25" "1" false false true]; [mkJC "20" "0" false false true; mkJC "25" "1" false false true]].
Definition file331 := mkJF "MH-S314" "McoHome Technology Co., Ltd" "015F" ["3102:0204"; "3141:1302"] "Four Way Switch" [[mkJC "00" "1" false false true; mkJC "20" "1" false false true; mkJC "25" "1" true false true; mkJC "27" "1" true false true; mkJC "60" "2" true false true; mkJC "70" "0" true false true; mkJC "72" "1" true false true; mkJC "85" "1" true false true; mkJC "86" "1" true false true; mkJC "8E" "1" true false true]; [mkJC "20" "0" false false true; mkJC "25" "1" false false true]; [mkJC "20" "0" false false true; mkJC "25" "1" false false true]; [mkJC "20" "0" false false true; mkJC "25" "1" false false true]; [mkJC "20" "0" false false true; mkJC "25" "1" false false true]].
Definition file332 := mkJF "MH-S411" "McoHome Technology Co., Ltd" "015F" ["4102:0201"] "Touch Panel Switch (Single)" [[mkJC "00" "1" false false true; mkJC "20" "1" false false true; mkJC "25" "1" false false true; mkJC "27" "1" false false true; mkJC "72" "1" false false true; mkJC "85" "1" false false true; mkJC "86" "1" false false true]].
Definition file333 := mkJF "MH-S412" "McoHome Technology Co., Ltd" "015F" ["4102:0202"] "Touch Panel Switch (Dual)" [[mkJC "00" "1" false false true; mkJC "20" "1" false false true; mkJC "25" "1" false false true; mkJC "27" "1" false false true; mkJC "60" "2" false false true; mkJC "70" "1" false false true; mkJC "72" "1" false false true; mkJC "85" "1" false false true; mkJC "86" "1" false false true]; [mkJC "20" "0" false false true; mkJC "25" "1" false false true]; [mkJC "20" "0" false false true; mkJC "25" "1" false false true]].
Definition file334 := mkJF "TPS411" "McoHome Technology Co., Ltd" "015F" ["4111:1302"] "Touch Panel Switch 1 Button" [[mkJC "00" "1" false false true; mkJC "20" "1" false false true; mkJC "25" "1" false false true; mkJC "27" "1" false false true; mkJC "60" "2" false false true; mkJC "70" "1" false false true; mkJC "72" "1" false false true; mkJC "85" "2" false false true; mkJC "86" "1" false false true; mkJC "8E" "2" false false true]; [mkJC "20" "0" false false true; mkJC "25" "1" false false true]].
Definition file335 := mkJF "TPS412" "McoHome Technology Co., Ltd" "015F" ["4121:1302"] "Touch Panel Switch 2 Channel" [[mkJC "00" "1" false false true; mkJC "20" "1" false false true; mkJC "25" "1" false false true; mkJC "27" "1" false false true; mkJC "60" "2" false false true; mkJC "70" "1" false false true; mkJC "72" "1" false false true; mkJC "85" "2" false false true; mkJC "86" "1" false false true; mkJC "8E" "2" false false true]; [mkJC "20" "0" false false true; mkJC "25" "1" false false true]; [mkJC "20" "0" false false true; mkJC "25" "1" false false true]].
Definition file336 := mkJF "5051xx" "Merten" "007A" ["0001:0002"] "Radio Push-button CONNECT, 1f" [].
Definition file337 := mkJF "506119" "Merten" "007A" ["0001:0002"] "Battery Powered Wall Controller" [].
Definition file338 := mkJF "507001" "Merten" "007A" ["8001:8001"] "Switch Wall Insert 1 Gang" [[mkJC "00" "1" false false true; mkJC "20" "1" false false true; mkJC "25" "1" true false true; mkJC "27" "1" true false true; mkJC "28" "1" true false true; mkJC "70" "1" true false true; mkJC "72" "1" true false true; mkJC "75" "2" true false true; mkJC "85" "1" true false true; mkJC "86" "1" true false true]].
Definition file339 := mkJF "507501" "Merten" "007A" ["8001:8002"] "Merten Connect  Flush-mounted switch" [[mkJC "00" "1" false false true; mkJC "20" "1" false false true; mkJC "25" "1" false false true; mkJC "27" "1" false false true; mkJC "28" "1" false false true; mkJC "70" "1" false false true; mkJC "72" "1" false false true; mkJC "75" "2" false false true; mkJC "85" "1" false false true; mkJC "86" "1" false false true]].
Definition file340 := mkJF "507601" "Merten" "007A" ["8001:8003"] "Dual Pole Wall Switch" [[mkJC "25" "0" false false false]].
Definition file341 := mkJF "507900" "Merten" "007A" ["4003:0002"] "Wall Dimmer Module - Flush Mounted " [[mkJC "00" "1" false false true; mkJC "20" "1" false false true; mkJC "26" "1" true false true; mkJC "27" "1" true false true; mkJC "29" "1" true false true; mkJC "70" "1" true false true; mkJC "72" "1" true false true; mkJC "75" "2" true false true; mkJC "85" "1" true false true; mkJC "86" "1" true false true; mkJC "8E" "1" true false true]].
Definition file342 := mkJF "5082xx" "Merten" "007A" ["0002:0001"] "Battery Powered Wall Controller MOVE" [[mkJC "00" "1" false false true; mkJC "20" "1" false false true; mkJC "70" "1" true false true; mkJC "72" "1" true false true; mkJC "85" "1" true false true; mkJC "86" "1" true false true; mkJC "8E" "1" true false true]].
Definition file343 := mkJF "509519" "Merten" "007A" ["4005:0001"] "Merten Radio Argus 220 Connect Movement Detector" [[mkJC "00" "1" false false true; mkJC "20" "1" false false true; mkJC "25" "1" true false true; mkJC "60" "2" true false true; mkJC "70" "1" true false true; mkJC "72" "1" true false true; mkJC "75" "2" true false true; mkJC "85" "1" true false true; mkJC "86" "1" true false true; mkJC "8E" "1" true false true]; [mkJC "20" "0" false false true; mkJC "25" "1" false false true; mkJC "72" "1" false false true; mkJC "75" "2" false false true; mkJC "86" "1" false false true]; [mkJC "20" "0" false false true; mkJC "25" "1" false false true; mkJC "72" "1" false false true; mkJC "86" "1" false false true]; [mkJC "20" "0" false false true; mkJC "30" "0" false false true; mkJC "31" "0" false false true; mkJC "72" "1" false false true; mkJC "86" "1" false false true; mkJC "9E" "0" false false true]; [mkJC "20" "0" false false true; mkJC "30" "0" false false true; mkJC "31" "0" false false true; mkJC "72" "1" false false true; mkJC "86" "1" false false true; mkJC "9E" "0" false false true]].
Definition file344 := mkJF "50x5xx" "Merten" "007A" ["4004:0001"] "roller shutter push-button" [[mkJC "00" "1" false false true; mkJC "20" "1" false false true; mkJC "26" "1" true false true; mkJC "31" "1" false false true; mkJC "50" "1" false false true; mkJC "60" "2" false false true; mkJC "70" "1" false false true; mkJC "72" "1" false false true; mkJC "75" "2" false false true; mkJC "85" "1" false false true; mkJC "86" "1" false false true; mkJC "9E" "1" false false true]; [mkJC "00" "1" false false true; mkJC "20" "0" false false true; mkJC "26" "1" false false true; mkJC "31" "1" false false true; mkJC "50" "1" false false true; mkJC "72" "1" false false true; mkJC "75" "2" false false true; mkJC "86" "1" false false true; mkJC "9E" "1" false false true]; [mkJC "00" "1" false false true; mkJC "20" "0" false false true; mkJC "26" "1" false false true; mkJC "50" "1" false false true; mkJC "72" "1" false false true; mkJC "75" "2" false false true; mkJC "86" "1" false false true]].
Definition file345 := mkJF "509519" "Merten" "007A" ["4005:0001"] "Merten Radio Argus 220 Connect Movement Detector" [[mkJC "00" "1" false false true; mkJC "20" "1" false false true; mkJC "25" "1" true false true; mkJC "60" "2" true false true; mkJC "70" "1" true false true; mkJC "72" "1" true false true; mkJC "75" "2" true false true; mkJC "85" "1" true false true; mkJC "86" "1" true false true; mkJC "8E" "1" true false true]; [mkJC "20" "0" false false true; mkJC "25" "1" false false true; mkJC "72" "1" false false true; mkJC "75" "2" false false true; mkJC "86" "1" false false true]; [mkJC "20" "0" false false true; mkJC "25" "1" false false true; mkJC "72" "1" false false true; mkJC "86" "1" false false true]; [mkJC "20" "0" false false true; mkJC "30" "0" false false true; mkJC "31" "0" false false true; mkJC "72" "1" false false true; mkJC "86" "1" false false true; mkJC "9E" "0" false false true]; [mkJC "20" "0" false false true; mkJC "30" "0" false false true; mkJC "31" "0" false false true; mkJC "72" "1" false false true; mkJC "86" "1" false false true; mkJC "9E" "0" false false true]].
Definition file346 := mkJF "DB100Z" "Nexia Home Intelligence" "0178" ["4442:3130"] "Doorbell" [[mkJC "00" "1" false false true; mkJC "20" "1" false false true; mkJC "59" "0" true false true; mkJC "5A" "1" true false true; mkJC "5E" "1" true false true; mkJC "70" "1" true false true; mkJC "71" "3" true false true; mkJC "72" "1" true false true; mkJC "73" "1" true false true; mkJC "7A" "0" true false true; mkJC "80" "1" true false true; mkJC "84" "2" true false true; mkJC "85" "1" true false true; mkJC "86" "1" true false true]].
Definition file347 := mkJF "ASP-3-1" "ID-RF" "0165" ["0001:0001"] "Smart Plug" [[mkJC "00" "1" false false true; mkJC "20" "1" false false true; mkJC "25" "1" true false true; mkJC "27" "1" true false true; mkJC "59" "1" true false true; mkJC "5A" "1" true false true; mkJC "5E" "1" true false true; mkJC "70" "1" true false true; mkJC "71" "3" true false true; mkJC "72" "1" true false true; mkJC "73" "1" true false true; mkJC "75" "2" true false true; mkJC "85" "1" true false true; mkJC "86" "2" true false true; mkJC "87" "1" true false true]].
Definition file348 := mkJF "CRC-3100" "ID-RF" "0165" ["0002:0001"] "Octon Remote Control" [[mkJC "00" "1" false false true; mkJC "20" "1" false false true; mkJC "2B" "1" false false false; mkJC "59" "0" true false true; mkJC "5A" "1" true false true; mkJC "5B" "2" true false true; mkJC "5E" "1" true false true; mkJC "70" "1" true false true; mkJC "72" "1" true false true; mkJC "73" "1" true false true; mkJC "80" "1" true false true; mkJC "84" "2" true false true; mkJC "85" "1" true false true; mkJC "86" "1" true false true]].
Definition file349 := mkJF "CWS-3101" "ID-RF" "0165" ["0002:0003"] "Wall Switch" [[mkJC "00" "1" false false true; mkJC "20" "1" false false true; mkJC "2B" "1" false false false; mkJC "5B" "2" false false false; mkJC "70" "1" false false true; mkJC "72" "1" false false true; mkJC "80" "1" false false true; mkJC "84" "2" false false true; mkJC "85" "1" false false true; mkJC "86" "1" false false true]].
Definition file350 := mkJF "MSP-3-1-X1" "ID-RF" "0165" ["0001:0003"] " Z-Wave Plus Micro Smart Plug ON/OFF" [[mkJC "00" "1" false false true; mkJC "20" "1" false false true; mkJC "25" "1" true false true; mkJC "27" "1" true false true; mkJC "32" "3" true false true; mkJC "59" "1" true false true; mkJC "5A" "1" true false true; mkJC "5E" "1" true false true; mkJC "70" "1" true false true; mkJC "71" "4" true false true; mkJC "72" "1" true false true; mkJC "73" "1" true false true; mkJC "75" "2" true false true; mkJC "7A" "1" true false true; mkJC "85" "2" true false true; mkJC "86" "2" true false true; mkJC "87" "1" true false true]].
Definition file351 := mkJF "Soft Remote" "ID-RF" "0165" ["0002:0002"] "Remote Control" [[mkJC "00" "1" false false true; mkJC "20" "1" false false true; mkJC "59" "1" true false true; mkJC "5A" "0" true false true; mkJC "5B" "1" true false true; mkJC "5E" "1" true false true; mkJC "70" "1" true false true; mkJC "72" "1" true false true; mkJC "73" "1" true false true; mkJC "80" "1" true false true; mkJC "84" "2" true false true; mkJC "85" "1" true false true; mkJC "86" "1" true false true]].
Definition file352 := mkJF "NQ-9121" "NorthQ" "0096" ["0010:0001"] "NorthQ Gas Meter" [].
Definition file353 := mkJF "NQ-9021" "NorthQ" "0096" ["0001:0001"] "NorthQ Electrical Meter" [[mkJC "00" "1" false false true; mkJC "20" "1" true false true; mkJC "32" "2" true false true; mkJC "3D" "0" true false true; mkJC "56" "1" true false true; mkJC "70" "1" true false true; mkJC "72" "1" true false true; mkJC "7A" "0" true false true; mkJC "80" "1" true false true; mkJC "84" "1" true false true; mkJC "86" "1" true false true; mkJC "8B" "0" true false true]].
Definition file354 := mkJF "NQ-9022" "NorthQ" "0096" ["0001:0002"] "NorthQ Electrical Meter" [[mkJC "00" "1" false false true; mkJC "20" "1" true false true; mkJC "32" "2" true false true; mkJC "3D" "1" true false true; mkJC "56" "1" true false true; mkJC "70" "1" true false true; mkJC "72" "1" true false true; mkJC "7A" "1" true false true; mkJC "86" "1" true false true; mkJC "8B" "1" true false true]].
Definition file355 := mkJF "NQ-9121" "NorthQ" "0096" ["0010:0001"] "NorthQ Q-Gas 9121 (Firmware v3, 2016)" [[mkJC "00" "1" false false true; mkJC "20" "1" true false true; mkJC "32" "2" true false true; mkJC "3D" "1" true false true; mkJC "56" "1" true false true; mkJC "70" "1" true false true; mkJC "72" "1" true false true; mkJC "7A" "1" true false true; mkJC "80" "1" true false true; mkJC "84" "1" true false true; mkJC "86" "1" true false true; mkJC "8B" "1" true false true]].
Definition file356 := mkJF "ZIP-PAB01" "Philio Technology Corp" "013C" ["0006:001A"] "Zipato Micromodule Energy Meter" [[mkJC "32" "3" false false true; mkJC "56" "1" false false true; mkJC "59" "1" false false true; mkJC "5A" "1" false false true; mkJC "5E" "1" false false true; mkJC "60" "2" false false true; mkJC "70" "1" false false true; mkJC "72" "1" false false true; mkJC "73" "1" false false true; mkJC "7A" "1" false false true; mkJC "85" "2" false false true; mkJC "86" "2" false false true; mkJC "8E" "3" false false true]; [mkJC "32" "3" false false true; mkJC "60" "2" false false false]; [mkJC "32" "3" false false true]; [mkJC "32" "3" false false true]].
Definition file357 := mkJF "PAD02" "Philio Technology Corp" "013C" ["0005:0031"] "Dimmer Socket" [[mkJC "00" "1" false false true; mkJC "20" "1" false false true; mkJC "26" "2" true true true; mkJC "2B" "1" true true true; mkJC "2C" "1" true true true; mkJC "59" "1" true true true; mkJC "5A" "1" true true true; mkJC "5E" "1" true true true; mkJC "70" "1" true true true; mkJC "71" "1" true true true; mkJC "72" "1" true true true; mkJC "73" "1" true true true; mkJC "7A" "1" true true true; mkJC "85" "2" true true true; mkJC "86" "2" true true true; mkJC "98" "1" true false true]].
Definition file358 := mkJF "PAN03" "Philio Technology Corp" "013C" ["0001:000F"] "In Wall Micromodule Single Switch" [[mkJC "00" "1" false false true; mkJC "20" "1" true false true; mkJC "25" "1" true false true; mkJC "27" "1" true false true; mkJC "32" "3" true false true; mkJC "59" "1" true false true; mkJC "5A" "1" true false true; mkJC "5E" "1" true false true; mkJC "70" "1" true false true; mkJC "71" "1" true false true; mkJC "72" "1" true false true; mkJC "73" "1" true false true; mkJC "75" "2" true false true; mkJC "7A" "1" true false true; mkJC "85" "2" true false true; mkJC "86" "2" true false true; mkJC "98" "0" true false true]].
Definition file359 := mkJF "PAN04" "Philio Technology Corp" "013C" ["0001:0003"; "0001:0012"; "0001:0014"] "In Wall Dual Relay(1 Way) Switch Module 2x 1.5kW				with power meter			" [[mkJC "00" "1" false false true; mkJC "20" "1" false false true; mkJC "25" "1" false false true; mkJC "27" "1" false false true; mkJC "2B" "1" false false true; mkJC "32" "3" false false true; mkJC "60" "2" false false true; mkJC "70" "1" false false true; mkJC "71" "1" false false true; mkJC "72" "1" false false true; mkJC "85" "1" false false true; mkJC "86" "1" false false true]; [mkJC "20" "0" false false true; mkJC "25" "1" false false true; mkJC "32" "3" false false true]; [mkJC "20" "0" false false true; mkJC "25" "1" false false true; mkJC "32" "3" false false true]; [mkJC "20" "0" false false true; mkJC "25" "1" false false true; mkJC "32" "3" false false true]].
Definition file360 := mkJF "PAN06" "Philio Technology Corp" "013C" ["0001:0004"; "0001:0013"] "In Wall Dual Relay(1 Way) Switch Module 2x 1.5kW			" [[mkJC "00" "1" false false true; mkJC "20" "1" true false true; mkJC "25" "1" true false true; mkJC "27" "1" true false true; mkJC "60" "2" true false true; mkJC "70" "1" true false true; mkJC "71" "1" true false true; mkJC "72" "1" true false true; mkJC "85" "1" true false true; mkJC "86" "1" true false true]; [mkJC "20" "0" false false true; mkJC "25" "1" false false true]; [mkJC "20" "0" false false true; mkJC "25" "1" false false true]; [mkJC "20" "0" false false true; mkJC "25" "1" false false true]].
Definition file361 := mkJF "PAN08" "Philio Technology Corp" "013C" ["0001:0006"; "0001:0015"] "Relay Insert for Blind Control" [[mkJC "00" "1" false false true; mkJC "20" "1" true false true; mkJC "25" "1" true false true; mkJC "26" "3" true false true; mkJC "2B" "1" true false true; mkJC "2C" "1" true false true; mkJC "32" "3" true false true; mkJC "70" "1" true false true; mkJC "71" "1" true false true; mkJC "72" "1" true false true; mkJC "85" "1" true false true; mkJC "86" "1" true false true]].
Definition file362 := mkJF "PAN11" "Philio Technology Corp" "013C" ["0001:0001"; "0001:0011"; "0001:0030"] "Smart Energy Plug In Switch" [[mkJC "00" "1" false false true; mkJC "20" "1" true false true; mkJC "25" "1" true false true; mkJC "27" "1" true false true; mkJC "32" "3" true false true; mkJC "59" "1" true false true; mkJC "5A" "1" true false true; mkJC "5E" "2" true false true; mkJC "70" "1" true false true; mkJC "71" "1" true false true; mkJC "72" "2" true false true; mkJC "73" "1" true false true; mkJC "75" "2" true false true; mkJC "7A" "2" true false true; mkJC "85" "2" true false true; mkJC "86" "1" false false true; mkJC "98" "1" true false true]].
Definition file363 := mkJF "PAT02" "Philio Technology Corp" "013C" ["0002:001F"] "Flood Multisensor (incl. humidty and temperature)" [[mkJC "00" "1" false false true; mkJC "20" "1" false false true; mkJC "30" "2" false false true; mkJC "31" "5" false false true; mkJC "70" "1" false false true; mkJC "71" "1" false false true; mkJC "72" "1" false false true; mkJC "80" "1" false false true; mkJC "84" "2" false false true; mkJC "85" "1" false false true; mkJC "86" "1" false false true; mkJC "8F" "1" false false true]].
Definition file364 := mkJF "PAT02-A" "Philio Technology Corp" "013C" ["0002:001F"] "Flood Multisensor (incl. humidty and temperature)" [[mkJC "00" "1" false false true; mkJC "20" "1" false false true; mkJC "30" "2" false false true; mkJC "31" "5" false false true; mkJC "70" "1" false false true; mkJC "71" "1" false false true; mkJC "72" "1" false false true; mkJC "80" "1" false false true; mkJC "84" "2" false false true; mkJC "85" "1" false false true; mkJC "86" "1" false false true; mkJC "8F" "1" false false true]].
Definition file365 := mkJF "PAT02-B" "Philio Technology Corp" "013C" ["0002:0020"] "Z-Wave room sensor" [[mkJC "00" "1" false false true; mkJC "20" "1" false false true; mkJC "30" "2" true false true; mkJC "31" "5" true false true; mkJC "59" "1" true false true; mkJC "5A" "1" true false true; mkJC "5E" "1" true false true; mkJC "70" "1" true false true; mkJC "71" "4" true false true; mkJC "72" "1" true false true; mkJC "73" "1" true false true; mkJC "7A" "1" true false true; mkJC "80" "1" true false true; mkJC "84" "2" true false true; mkJC "85" "2" true false true; mkJC "86" "2" true false true; mkJC "8F" "1" true false true; mkJC "98" "1" true false true]].
Definition file366 := mkJF "PAT02-C" "Philio Technology Corp" "013C" ["0002:0021"] "Flood Sensor" [[mkJC "00" "1" false false true; mkJC "20" "1" false false true; mkJC "30" "2" true false true; mkJC "59" "1" true false true; mkJC "5A" "1" true false true; mkJC "5E" "1" true false true; mkJC "70" "1" true false true; mkJC "71" "3" true false true; mkJC "72" "1" true false true; mkJC "73" "1" true false true; mkJC "7A" "1" true false true; mkJC "80" "1" true false true; mkJC "84" "2" true false true; mkJC "85" "1" true false true; mkJC "86" "1" true false true; mkJC "8F" "1" true false true; mkJC "98" "1" true false true]].
Definition file367 := mkJF "PAT02-1C" "Philio Technology Corp" "013C" ["0002:0021"] "Flood Sensor" [[mkJC "00" "1" false false true; mkJC "20" "1" false false true; mkJC "30" "2" true false true; mkJC "59" "1" true false true; mkJC "5A" "1" true false true; mkJC "5E" "1" true false true; mkJC "70" "1" true false true; mkJC "71" "3" true false true; mkJC "72" "1" true false true; mkJC "73" "1" true false true; mkJC "7A" "1" true false true; mkJC "80" "1" true false true; mkJC "84" "2" true false true; mkJC "85" "1" true false true; mkJC "86" "1" true false true; mkJC "8F" "1" true false true; mkJC "98" "1" true false true]].
Definition file368 := mkJF "PSE02" "Philio Technology Corp" "013C" ["0004:000A"] "Siren" [[mkJC "00" "1" false false true; mkJC "20" "1" false false true; mkJC "25" "1" false false true; mkJC "59" "0" true false true; mkJC "5A" "1" true false true; mkJC "5E" "1" true false true; mkJC "71" "3" false false false; mkJC "72" "1" true false true; mkJC "73" "1" true false true; mkJC "7A" "0" true false true; mkJC "86" "1" true false true; mkJC "98" "0" true false true]].
Definition file369 := mkJF "PSM02" "Philio Technology Corp" "013C" ["0002:0002"] "Slim Multi-Sensor" [[mkJC "00" "1" false false true; mkJC "20" "1" false false true; mkJC "30" "2" false false true; mkJC "31" "5" false false true; mkJC "70" "1" false false true; mkJC "72" "1" false false true; mkJC "80" "1" false false true; mkJC "84" "2" false false true; mkJC "85" "1" false false true; mkJC "86" "1" false false true]].
Definition file370 := mkJF "PSR04" "Philio Technology Corp" "013C" ["0009:0022"] "Smart Color Button" [[mkJC "00" "1" false false true; mkJC "20" "1" true false true; mkJC "59" "1" true false true; mkJC "5A" "1" true false true; mkJC "5B" "1" true true false; mkJC "5E" "2" true false true; mkJC "70" "1" true true false; mkJC "72" "2" true false true; mkJC "73" "1" true false true; mkJC "7A" "2" true false true; mkJC "80" "1" true true false; mkJC "84" "2" true true false; mkJC "85" "2" true true false; mkJC "86" "2" true false true; mkJC "8F" "1" true false true; mkJC "98" "1" true false true]].
Definition file371 := mkJF "PST02A" "Philio Technology Corp" "013C" ["0002:000C"] "Slim Multi-Sensor (PIR/Door/Temperature/Illumination)" [[mkJC "00" "1" false false true; mkJC "20" "1" false false true; mkJC "30" "2" false false true; mkJC "31" "5" false false true; mkJC "59" "0" true false true; mkJC "5A" "0" true false true; mkJC "5E" "0" true false true; mkJC "70" "1" false false true; mkJC "71" "1" false false true; mkJC "72" "1" false false true; mkJC "73" "0" true false true; mkJC "80" "1" false false true; mkJC "84" "2" false false true; mkJC "85" "1" false false true; mkJC "86" "1" false false true; mkJC "8F" "1" false false true]].
Definition file372 := mkJF "PST02B" "Philio Technology Corp" "013C" ["0002:000D"] "Slim Multi-Sensor (PIR/Temperature/Illumination)" [[mkJC "00" "1" false false true; mkJC "20" "1" false false true; mkJC "30" "2" true false true; mkJC "31" "5" true false true; mkJC "59" "1" true false true; mkJC "5A" "1" true false true; mkJC "5E" "1" true false true; mkJC "70" "1" true false true; mkJC "71" "3" true false true; mkJC "72" "1" true false true; mkJC "73" "1" true false true; mkJC "7A" "1" true false true; mkJC "80" "1" true false true; mkJC "84" "2" true false true; mkJC "85" "1" true false true; mkJC "86" "1" true false true; mkJC "8F" "1" true false true; mkJC "98" "1" true false true]].
Definition file373 := mkJF "PST02C" "Philio Technology Corp" "013C" ["0002:000E"] "Slim Multi-Sensor (Door/Temperature/Illumination)" [[mkJC "00" "1" false false true; mkJC "20" "1" false false true; mkJC "30" "2" false false true; mkJC "31" "5" false false true; mkJC "70" "1" false false true; mkJC "71" "1" false false true; mkJC "72" "1" false false true; mkJC "80" "1" false false true; mkJC "84" "2" false false true; mkJC "85" "1" false false true; mkJC "86" "1" false false true; mkJC "8F" "1" false false true]].
Definition file374 := mkJF "BTZW125" "Poly-control" "010E" ["0008:0002"] "Danalock v2 circle" [[mkJC "00" "1" false false true; mkJC "20" "1" false true false; mkJC "22" "1" false false true; mkJC "59" "1" false true false; mkJC "5E" "2" false false true; mkJC "62" "2" true true false; mkJC "70" "1" false true false; mkJC "72" "2" true true true; mkJC "73" "1" false false true; mkJC "80" "1" false true true; mkJC "85" "2" false true false; mkJC "8A" "1" false true false; mkJC "8B" "1" false true false]].
Definition file375 := mkJF "004001" "Popp & Co" "0154" ["0100:0201"] "Smoke Detector and Siren" [[mkJC "00" "1" false false true; mkJC "20" "1" false false true; mkJC "25" "1" false false true; mkJC "30" "2" false false true; mkJC "70" "1" false false true; mkJC "71" "1" false false true; mkJC "72" "1" false false true; mkJC "80" "1" false false true; mkJC "85" "1" false false true; mkJC "86" "1" false false true]].
Definition file376 := mkJF "004407" "Popp & Co" "0154" ["0004:0003"] "CO Detector" [[mkJC "00" "1" false false true; mkJC "20" "1" true false true; mkJC "30" "2" true false true; mkJC "31" "7" true false true; mkJC "59" "1" true false true; mkJC "5A" "1" true false true; mkJC "5E" "1" true false true; mkJC "70" "1" true false true; mkJC "71" "5" true false true; mkJC "72" "1" true false true; mkJC "73" "1" true false true; mkJC "7A" "1" true false true; mkJC "80" "1" true false true; mkJC "84" "2" true false true; mkJC "85" "2" true false true; mkJC "86" "2" true false true]].
Definition file377 := mkJF "005107" "Popp & Co" "0154" ["0000:0000"] "Solar Powered Outdoor Siren" [[mkJC "00" "1" false false true; mkJC "20" "1" false false true; mkJC "25" "1" false false true; mkJC "30" "2" false false true; mkJC "31" "5" false false true; mkJC "70" "1" false false true; mkJC "71" "1" false false true; mkJC "72" "1" false false true; mkJC "80" "1" false false true; mkJC "85" "1" false false true; mkJC "86" "1" false false true]].
Definition file378 := mkJF "005107" "Popp & Co" "0154" ["0004:0002"] "Solar Powered Outdoor Siren" [[mkJC "00" "1" false false true; mkJC "20" "1" false false true; mkJC "25" "1" false false true; mkJC "30" "2" false false true; mkJC "31" "5" false false true; mkJC "70" "1" false false true; mkJC "71" "1" false false true; mkJC "72" "1" false false true; mkJC "80" "1" false false true; mkJC "85" "1" false false true; mkJC "86" "1" false false true]].
Definition file379 := mkJF "005107" "Popp & Co" "0154" ["0004:0002"] "Solar Powered Outdoor Siren" [[mkJC "00" "1" false false true; mkJC "20" "1" false false true; mkJC "25" "1" false false true; mkJC "30" "2" false false true; mkJC "31" "5" false false true; mkJC "70" "1" false false true; mkJC "71" "1" false false true; mkJC "72" "1" false false true; mkJC "80" "1" false false true; mkJC "85" "1" false false true; mkJC "86" "1" false false true]].
Definition file380 := mkJF "005206" "Popp & Co" "0154" ["0100:0400"] "Z-Weather" [[mkJC "00" "1" false false true; mkJC "20" "1" false false true; mkJC "30" "0" false false true; mkJC "31" "6" true false true; mkJC "32" "3" true false true; mkJC "59" "1" true false true; mkJC "5A" "1" true false true; mkJC "5E" "1" true false true; mkJC "70" "1" true false true; mkJC "72" "1" true false true; mkJC "73" "1" true false true; mkJC "80" "1" true false true; mkJC "84" "2" true false true; mkJC "85" "2" true false true; mkJC "86" "2" true false true; mkJC "89" "1" true false true; mkJC "8E" "2" true false true; mkJC "8F" "1" true false true; mkJC "9B" "0" true false true]].
Definition file381 := mkJF "009204" "Popp & Co" "0154" ["0100:0103"] "KFOB-C Remote-Control" [[mkJC "00" "1" false false true; mkJC "20" "1" false false true; mkJC "2D" "1" true false true; mkJC "59" "1" true false true; mkJC "5A" "1" true false true; mkJC "5B" "1" true false true; mkJC "5E" "1" true false true; mkJC "70" "1" true false true; mkJC "72" "1" true false true; mkJC "73" "1" true false true; mkJC "80" "1" true false true; mkJC "84" "2" true false true; mkJC "85" "1" true false true; mkJC "86" "2" true false true; mkJC "8E" "1" true false true; mkJC "8F" "1" true false true]].
Definition file382 := mkJF "009303" "Popp & Co" "0154" ["0100:0101"] "Wall Controller" [[mkJC "00" "1" false false true; mkJC "20" "1" false false true; mkJC "26" "0" false false true; mkJC "2B" "0" false false true; mkJC "2D" "0" true false true; mkJC "59" "0" true false true; mkJC "5A" "1" true false true; mkJC "5B" "1" false false true; mkJC "5E" "1" true false true; mkJC "70" "1" true false true; mkJC "72" "1" true false true; mkJC "73" "1" true false true; mkJC "80" "1" true false true; mkJC "84" "2" true false true; mkJC "85" "1" true false true; mkJC "86" "1" true false true; mkJC "8E" "0" true false true; mkJC "8F" "1" true false true]].
Definition file383 := mkJF "009402" "Popp & Co" "0154" ["0004:0004"] "10 Year Smoke Detector with Siren Function" [[mkJC "00" "1" false false true; mkJC "20" "1" false false true; mkJC "25" "1" false false true; mkJC "30" "2" false false true; mkJC "70" "1" false false true; mkJC "71" "1" false false true; mkJC "72" "1" false false true; mkJC "80" "1" false false true; mkJC "85" "1" false false true; mkJC "86" "1" false false true]].
Definition file384 := mkJF "009402" "Popp & Co" "0154" ["0004:0004"] "10 Year Smoke Detector" [[mkJC "00" "1" false false true; mkJC "20" "1" true false true; mkJC "25" "1" true false true; mkJC "30" "2" true false true; mkJC "59" "1" true false true; mkJC "5A" "1" true false true; mkJC "5E" "1" true false true; mkJC "70" "1" true false true; mkJC "71" "5" true false true; mkJC "72" "1" true false true; mkJC "73" "1" true false true; mkJC "7A" "1" true false true; mkJC "80" "1" true false true; mkJC "85" "2" true false true; mkJC "86" "2" true false true]].
Definition file385 := mkJF "012501" "Popp & Co" "0154" ["0005:0001"] "Electric Strike Lock Control" [[mkJC "00" "1" false false true; mkJC "20" "1" false false true; mkJC "30" "2" true false true; mkJC "59" "1" true false true; mkJC "5A" "1" true false true; mkJC "5E" "1" true false true; mkJC "62" "0" false false true; mkJC "63" "0" false false true; mkJC "70" "1" true false true; mkJC "71" "5" true false true; mkJC "72" "1" true false true; mkJC "73" "1" true false true; mkJC "76" "1" false false true; mkJC "7A" "1" true false true; mkJC "80" "1" true false true; mkJC "85" "2" true false true; mkJC "86" "2" true false true]].
Definition file386 := mkJF "05438" "Popp & Co" "0154" ["0003:0001"] "Indoor/Outdoor Wall Plug Switch" [[mkJC "00" "1" false false true; mkJC "20" "1" false false true; mkJC "25" "1" false false true; mkJC "27" "0" false false true; mkJC "32" "3" false false true; mkJC "70" "1" false false true; mkJC "72" "1" false false true; mkJC "85" "1" false false true; mkJC "86" "1" false false true; mkJC "87" "0" false false true]].
Definition file387 := mkJF "123580" "Popp & Co" "0154" ["1100:0002"] "Wall Plug Dimmer" [[mkJC "00" "1" false false true; mkJC "20" "1" true false true; mkJC "26" "2" true false true; mkJC "27" "0" true false true; mkJC "70" "1" true false true; mkJC "72" "1" true false true; mkJC "75" "0" true false true; mkJC "77" "0" true false true; mkJC "85" "1" true false true; mkJC "86" "1" true false true; mkJC "87" "0" true false true]].
Definition file388 := mkJF "123610" "Popp & Co" "0154" ["1100:0001"] "Wall Plug Switch" [[mkJC "00" "1" false false true; mkJC "20" "1" true false true; mkJC "25" "1" true false true; mkJC "27" "1" true false true; mkJC "70" "1" true false true; mkJC "72" "1" true false true; mkJC "75" "1" true false true; mkJC "77" "1" true false true; mkJC "85" "1" true false true; mkJC "86" "1" true false true; mkJC "87" "1" true false true]].
Definition file389 := mkJF "123665" "Popp & Co" "0154" ["0001:0001"] "Wall Plug Meter Switch" [[mkJC "00" "1" false false true; mkJC "20" "1" true false true; mkJC "25" "1" true false true; mkJC "27" "1" true false true; mkJC "32" "3" true false true; mkJC "70" "1" true false true; mkJC "72" "1" true false true; mkJC "85" "1" true false true; mkJC "86" "1" true false true]].
Definition file390 := mkJF "POPE005206" "POPP_NEW" "0169" ["0001:0001"] "Z Weather" [[mkJC "00" "1" false false true; mkJC "20" "1" false false true; mkJC "30" "0" false false true; mkJC "31" "6" true false true; mkJC "32" "3" true false true; mkJC "59" "1" true false true; mkJC "5A" "0" false false true; mkJC "5E" "1" true false true; mkJC "70" "1" true false true; mkJC "72" "1" true false true; mkJC "73" "1" true false true; mkJC "80" "1" true false true; mkJC "84" "2" true false true; mkJC "85" "1" true false true; mkJC "86" "1" true false true; mkJC "89" "1" true false true; mkJC "8E" "0" true false true; mkJC "8F" "1" true false true; mkJC "9B" "0" true false true]].
Definition file391 := mkJF "POPE700168" "Popp & Co" "0154" ["0004:0011"] "POPP Rain-Sensor" [[mkJC "00" "1" false false true; mkJC "31" "7" false false true; mkJC "32" "3" false false true; mkJC "59" "1" false false true; mkJC "5A" "1" false false true; mkJC "5E" "1" false false true; mkJC "70" "1" false false true; mkJC "72" "1" false false true; mkJC "73" "1" false false true; mkJC "7A" "1" false false true; mkJC "80" "1" false false true; mkJC "84" "2" false false true; mkJC "85" "2" false false true; mkJC "86" "2" false false true]].
Definition file392 := mkJF "ED2.0" "Prodrive Technologies" "0128" ["0000:0000"] "Eneco Meter Adapter" [[mkJC "00" "1" false false true; mkJC "20" "1" false false true; mkJC "22" "1" true false true; mkJC "3C" "0" true false true; mkJC "3D" "1" true false true; mkJC "3E" "0" true false true; mkJC "56" "1" true false true; mkJC "60" "2" true false true; mkJC "70" "1" true false true; mkJC "72" "1" true false true; mkJC "73" "1" true false true; mkJC "7A" "0" true false true; mkJC "86" "1" true false true; mkJC "8B" "1" true false true]; [mkJC "20" "0" false false true; mkJC "3D" "1" false false true; mkJC "72" "1" false false true; mkJC "86" "1" false false true]; [mkJC "20" "0" false false true; mkJC "3D" "1" false false true; mkJC "72" "1" false false true; mkJC "86" "1" false false true]; [mkJC "20" "0" false false true; mkJC "3D" "1" false false true; mkJC "72" "1" false false true; mkJC "86" "1" false false true]; [mkJC "20" "0" false false true; mkJC "3D" "1" false false true; mkJC "72" "1" false false true; mkJC "86" "1" false false true]; [mkJC "20" "0" false false true; mkJC "3D" "1" false false true; mkJC "72" "1" false false true; mkJC "86" "1" false false true]; [mkJC "20" "0" false false true; mkJC "3D" "1" false false true; mkJC "72" "1" false false true; mkJC "86" "1" false false true]].
Definition file393 := mkJF "P313A" "Qees" "0095" ["3103:0001"] "Plug-in Socket Dimmer" [[mkJC "00" "1" false false true; mkJC "20" "1" false false true; mkJC "25" "0" false false true; mkJC "26" "2" true false true; mkJC "27" "1" true false true; mkJC "2B" "1" true false true; mkJC "2C" "1" true false true; mkJC "32" "3" true false true; mkJC "72" "1" true false true; mkJC "7A" "1" true false true; mkJC "85" "2" true false true; mkJC "86" "1" true false true]].
Definition file394 := mkJF "Qees Wall" "Qees" "0095" ["0002:0001"] "Wall mountable mini 4 button remote" [[mkJC "00" "1" false false true; mkJC "20" "1" false false true; mkJC "70" "1" true false true; mkJC "72" "1" true false true; mkJC "80" "1" true false true; mkJC "84" "1" true false true; mkJC "85" "1" true false true; mkJC "86" "1" true false true]].
Definition file395 := mkJF "ZMNHAA" "Goap" "0159" ["0002:0002"] "Flush 1 relay" [[mkJC "00" "1" false false true; mkJC "20" "1" false false true; mkJC "25" "1" false false true; mkJC "31" "3" false false true; mkJC "32" "3" false false true; mkJC "60" "2" false false true; mkJC "70" "1" false false true; mkJC "72" "1" false false true; mkJC "85" "1" false false true; mkJC "86" "1" false false true]; [mkJC "20" "0" false false true; mkJC "30" "0" false false true]; [mkJC "20" "0" false false true; mkJC "30" "0" false false true]].
Definition file396 := mkJF "ZMNHAD" "Goap" "0159" ["0002:0052"] "Flush 1 relay" [[mkJC "00" "1" false false true; mkJC "20" "1" true false true; mkJC "25" "1" true false true; mkJC "27" "1" true false true; mkJC "30" "1" true false true; mkJC "32" "3" true false true; mkJC "59" "1" true false true; mkJC "5A" "1" true false true; mkJC "5E" "1" true false true; mkJC "60" "2" true false true; mkJC "70" "1" true false true; mkJC "71" "3" true false true; mkJC "72" "1" true false true; mkJC "73" "1" true false true; mkJC "85" "1" true false true; mkJC "86" "1" true false true; mkJC "8E" "0" true false true]; [mkJC "20" "0" false false true; mkJC "25" "1" false false true; mkJC "27" "1" false false true; mkJC "32" "3" false false true; mkJC "59" "1" false false true; mkJC "5E" "1" false false true; mkJC "85" "1" false false true; mkJC "86" "1" false false true]; [mkJC "20" "0" false false true; mkJC "30" "1" false false true; mkJC "59" "1" false false true; mkJC "5E" "1" false false true; mkJC "71" "3" false false true; mkJC "85" "1" false false true; mkJC "86" "1" false false true]; [mkJC "20" "0" false false true; mkJC "30" "1" false false true; mkJC "31" "7" false false false; mkJC "59" "2" false false true; mkJC "5E" "2" false false true; mkJC "71" "3" false false true; mkJC "85" "2" false false true; mkJC "86" "2" false false true; mkJC "8E" "3" false false true]].
Definition file397 := mkJF "ZMNHBA" "Goap" "0159" ["0002:0001"] "Flush 2 relays" [[mkJC "00" "1" false false true; mkJC "20" "1" false false true; mkJC "25" "1" false false true; mkJC "27" "1" false false true; mkJC "31" "5" false false true; mkJC "32" "3" false false true; mkJC "60" "2" false false true; mkJC "70" "1" false false true; mkJC "72" "1" false false true; mkJC "85" "1" false false true; mkJC "86" "1" false false true]; [mkJC "20" "0" false false true; mkJC "25" "1" false false true; mkJC "32" "3" false false true]; [mkJC "20" "0" false false true; mkJC "25" "1" false false true; mkJC "32" "3" false false true]].
Definition file398 := mkJF "ZMNHBD" "Goap" "0159" ["0002:0051"] "Flush 2 relays" [[mkJC "00" "1" false false true; mkJC "20" "1" false false true; mkJC "25" "1" false false true; mkJC "27" "0" false false true; mkJC "31" "5" false false true; mkJC "32" "3" false false true; mkJC "60" "2" false false true; mkJC "70" "1" false false true; mkJC "72" "1" false false true; mkJC "85" "1" false false true; mkJC "86" "1" false false true]; [mkJC "20" "0" false false true; mkJC "25" "1" false false true; mkJC "32" "3" false false true; mkJC "85" "1" false false true; mkJC "86" "1" false false true]; [mkJC "20" "0" false false true; mkJC "25" "1" false false true; mkJC "32" "3" false false true; mkJC "85" "1" false false true; mkJC "86" "1" false false true]].
Definition file399 := mkJF "ZMNHCD" "Goap" "0159" ["0003:0002"; "0003:0052"] "Flush Shutter" [[mkJC "00" "1" false false true; mkJC "20" "1" true false true; mkJC "25" "1" true false true; mkJC "26" "3" true false true; mkJC "27" "1" true false true; mkJC "31" "0" true false true; mkJC "32" "3" true false true; mkJC "59" "1" true false true; mkJC "5A" "1" true false true; mkJC "5E" "1" true false true; mkJC "60" "2" true false true; mkJC "70" "1" true false true; mkJC "72" "1" true false true; mkJC "73" "1" true false true; mkJC "85" "1" true false true; mkJC "86" "2" true false true; mkJC "8E" "1" true false true]; [mkJC "20" "0" false false true; mkJC "25" "1" false false true; mkJC "26" "3" false false true; mkJC "27" "1" false false true; mkJC "32" "3" false false true; mkJC "59" "1" false false true; mkJC "5E" "1" false false true; mkJC "85" "1" false false true; mkJC "86" "2" false false true; mkJC "8E" "1" false false true]; [mkJC "20" "0" false false true; mkJC "25" "1" false false true; mkJC "26" "3" false false true; mkJC "59" "1" false false true; mkJC "5E" "1" false false true; mkJC "85" "1" false false true; mkJC "86" "2" false false true; mkJC "8E" "1" false false true]].
Definition file400 := mkJF "ZMNHDA" "Goap" "0159" ["0001:0001"] "Flush dimmer" [[mkJC "00" "1" false false true; mkJC "20" "1" true false true; mkJC "25" "1" true false true; mkJC "26" "3" true false true; mkJC "27" "1" true false true; mkJC "31" "3" true false true; mkJC "32" "3" true false true; mkJC "60" "2" true false true; mkJC "70" "1" true false true; mkJC "72" "1" true false true; mkJC "73" "1" true false true; mkJC "85" "1" true false true; mkJC "86" "1" true false true]; [mkJC "20" "0" false false true; mkJC "30" "0" false false true]; [mkJC "20" "0" false false true; mkJC "30" "0" false false true]].
Definition file401 := mkJF "ZMNHDD" "Goap" "0159" ["0001:0051"] "Flush Dimmer Plus" [[mkJC "00" "1" false false true; mkJC "20" "1" false false true; mkJC "25" "1" false false true; mkJC "26" "3" false false true; mkJC "30" "1" false false true; mkJC "31" "5" false false true; mkJC "32" "3" false false true; mkJC "60" "2" false false true; mkJC "70" "1" false false true; mkJC "71" "1" false false true; mkJC "72" "1" false false true; mkJC "85" "1" false false true; mkJC "86" "1" false false true]; [mkJC "20" "0" false false true; mkJC "25" "1" false false true; mkJC "26" "3" false false true; mkJC "32" "3" false false true; mkJC "85" "1" false false true; mkJC "86" "1" false false true]; [mkJC "20" "0" false false true; mkJC "30" "1" false false true; mkJC "71" "1" false false true; mkJC "85" "1" false false true; mkJC "86" "1" false false true]; [mkJC "20" "0" false false true; mkJC "30" "1" false false true; mkJC "71" "1" false false true; mkJC "85" "1" false false true; mkJC "86" "1" false false true]].
Definition file402 := mkJF "ZMNHIA" "Goap" "0159" ["0005:0001"] "Flush on/off thermostat" [[mkJC "00" "1" false false true; mkJC "20" "1" false false true; mkJC "31" "3" true false true; mkJC "32" "3" true false true; mkJC "40" "1" true false true; mkJC "43" "1" true false true; mkJC "60" "2" true false true; mkJC "70" "1" true false true; mkJC "72" "0" true false true; mkJC "73" "1" true false true; mkJC "85" "1" true false true; mkJC "86" "1" true false true]; [mkJC "20" "0" false false true; mkJC "30" "0" false false true]; [mkJC "20" "0" false false true; mkJC "30" "0" false false true]].
Definition file403 := mkJF "ZMNHID" "Goap" "0159" ["0005:0051"] "Flush on/off thermostat" [[mkJC "00" "1" false false true; mkJC "20" "1" false false true; mkJC "27" "1" false false true; mkJC "31" "5" false false true; mkJC "32" "3" false false true; mkJC "40" "2" false false true; mkJC "43" "2" false false true; mkJC "70" "1" false false true; mkJC "72" "1" false false true; mkJC "85" "1" false false true; mkJC "86" "1" false false true]].
Definition file404 := mkJF "ZMNHJA2" "Qubino" "0159" ["0004:0001"] "Qubino Flush Pilot" [[mkJC "00" "1" false false true; mkJC "20" "1" true false true; mkJC "25" "1" true false true; mkJC "26" "3" true false true; mkJC "27" "1" true false true; mkJC "31" "3" true false true; mkJC "60" "2" true false true; mkJC "70" "1" true false true; mkJC "72" "1" true false true; mkJC "85" "1" true false true; mkJC "86" "1" true false true]; [mkJC "20" "0" false false true; mkJC "30" "0" false false true]; [mkJC "20" "0" false false true; mkJC "30" "0" false false true]; [mkJC "20" "0" false false true; mkJC "30" "0" false false true]].
Definition file405 := mkJF "ZMNHJA" "Goap" "0159" ["0004:0001"] "Flush Pilot" [[mkJC "00" "1" false false true; mkJC "20" "1" true false true; mkJC "25" "1" true false true; mkJC "26" "3" true false true; mkJC "27" "1" true false true; mkJC "31" "3" true false true; mkJC "60" "2" true false true; mkJC "70" "1" true false true; mkJC "72" "1" true false true; mkJC "85" "1" true false true; mkJC "86" "1" true false true]; [mkJC "20" "0" false false true; mkJC "30" "0" false false true]; [mkJC "20" "0" false false true; mkJC "30" "0" false false true]; [mkJC "20" "0" false false true; mkJC "30" "0" false false true]].
Definition file406 := mkJF "ZMNHJD" "Goap" "0159" ["0004:0051"] "Flush Pilot" [[mkJC "00" "1" false false true; mkJC "20" "1" false false true; mkJC "25" "1" false false true; mkJC "26" "3" false false true; mkJC "27" "1" false false true; mkJC "31" "3" false false true; mkJC "60" "2" false false true; mkJC "70" "1" false false true; mkJC "72" "1" false false true; mkJC "85" "1" false false true; mkJC "86" "1" false false true]; [mkJC "20" "0" false false true; mkJC "30" "0" false false true; mkJC "85" "1" false false true; mkJC "86" "1" false false true]; [mkJC "20" "0" false false true; mkJC "30" "0" false false true; mkJC "85" "1" false false true; mkJC "86" "1" false false true]; [mkJC "20" "0" false false true; mkJC "30" "0" false false true; mkJC "85" "1" false false true; mkJC "86" "1" false false true]].
Definition file407 := mkJF "ZMNHLA" "Goap" "0159" ["0005:0003"] "Flush PWM thermostat" [[mkJC "00" "1" false false true; mkJC "20" "1" false false true; mkJC "31" "3" false false true; mkJC "32" "3" false false true; mkJC "40" "2" false false true; mkJC "43" "2" false false true; mkJC "70" "1" false false true; mkJC "72" "1" false false true; mkJC "85" "1" false false true; mkJC "86" "1" false false true]].
Definition file408 := mkJF "ZMNHLD" "Goap" "0159" ["0005:0053"] "Flush PWM Thermostat" [[mkJC "20" "0" false false true; mkJC "27" "0" false false true; mkJC "30" "0" false false true; mkJC "31" "7" false false true; mkJC "32" "4" false false true; mkJC "40" "2" false false true; mkJC "43" "2" false false true; mkJC "59" "2" false false true; mkJC "5A" "0" false false true; mkJC "5E" "2" false false true; mkJC "70" "2" false false true; mkJC "72" "2" false false true; mkJC "73" "0" false false true; mkJC "85" "2" false false true; mkJC "86" "2" false false true; mkJC "EF" "0" false false true]; [mkJC "20" "1" false false true; mkJC "30" "0" false false true; mkJC "31" "7" false false true; mkJC "32" "4" false false true; mkJC "40" "2" false false true; mkJC "43" "2" false false true; mkJC "5A" "0" false false true; mkJC "5E" "0" false false true; mkJC "72" "2" false false true; mkJC "85" "2" false false true; mkJC "86" "2" false false true]; [mkJC "30" "0" false false true; mkJC "32" "4" false false true; mkJC "40" "0" false false true; mkJC "43" "2" false false true]; [mkJC "30" "0" false false true]; [mkJC "30" "0" false false true]; [mkJC "31" "7" false false true]].
Definition file409 := mkJF "ZMNHND" "Goap" "0159" ["0002:0053"] "Flush 1D relay" [[mkJC "00" "1" false false true; mkJC "20" "1" false false true; mkJC "25" "1" false false true; mkJC "27" "1" false false true; mkJC "30" "0" false false true; mkJC "31" "7" false false true; mkJC "59" "1" false false true; mkJC "5A" "1" false false true; mkJC "5E" "1" false false true; mkJC "60" "2" false false true; mkJC "70" "1" false false true; mkJC "72" "1" false false true; mkJC "73" "1" false false true; mkJC "85" "2" false false true; mkJC "86" "2" false false true; mkJC "8E" "3" false false true]; [mkJC "20" "0" false false true; mkJC "25" "1" false false true; mkJC "27" "1" false false true; mkJC "59" "1" false false true; mkJC "5E" "1" false false true; mkJC "85" "2" false false true; mkJC "86" "2" false false true; mkJC "8E" "3" false false true]; [mkJC "20" "0" false false true; mkJC "31" "7" false false true; mkJC "59" "1" false false true; mkJC "5E" "1" false false true; mkJC "85" "2" false false true; mkJC "86" "2" false false true; mkJC "8E" "3" false false true]].
Definition file410 := mkJF "ZMNHOD" "Goap" "0159" ["0003:0053"] "Flush Shutter DC" [[mkJC "00" "1" false false true; mkJC "20" "1" true false true; mkJC "25" "1" true false true; mkJC "26" "3" true false true; mkJC "27" "1" true false true; mkJC "30" "0" false false true; mkJC "31" "7" true false true; mkJC "32" "3" true false true; mkJC "59" "1" true false true; mkJC "5A" "1" true false true; mkJC "5E" "1" true false true; mkJC "60" "2" true false true; mkJC "70" "1" true false true; mkJC "72" "1" true false true; mkJC "73" "1" true false true; mkJC "85" "1" true false true; mkJC "86" "1" true false true; mkJC "8E" "0" true false true]; [mkJC "20" "0" false false true; mkJC "25" "1" false false true; mkJC "26" "3" false false true; mkJC "27" "1" false false true; mkJC "32" "3" false false true; mkJC "59" "1" false false true; mkJC "5E" "1" false false true; mkJC "85" "1" false false true; mkJC "86" "1" false false true]; [mkJC "20" "0" false false true; mkJC "31" "7" false false true; mkJC "59" "1" false false true; mkJC "5E" "1" false false true; mkJC "85" "1" false false true; mkJC "86" "1" false false true]].
Definition file411 := mkJF "ZMNHSD" "Goap" "0159" ["0001:0052"] "DIN Rail Dimmer" [[mkJC "00" "1" false false true; mkJC "20" "1" false false true; mkJC "25" "1" false false true; mkJC "26" "3" false false true; mkJC "27" "1" false false true; mkJC "32" "3" false false true; mkJC "70" "1" false false true; mkJC "72" "1" false false true; mkJC "85" "1" false false true; mkJC "86" "1" false false true]].
Definition file412 := mkJF "ZMNHVD" "Goap" "0159" ["0001:0053"] "Flush Dimmer 0-10V " [[mkJC "00" "1" false false true; mkJC "20" "1" true false true; mkJC "25" "1" true false true; mkJC "26" "3" true false true; mkJC "27" "1" true false true; mkJC "59" "1" true false true; mkJC "5A" "1" true false true; mkJC "5E" "1" true false true; mkJC "70" "1" true false true; mkJC "72" "1" true false true; mkJC "73" "1" true false true; mkJC "85" "1" true false true; mkJC "86" "1" true false true; mkJC "8E" "0" true false true]].
Definition file413 := mkJF "ZMNHWD" "Goap" "0159" ["0001:0054"] "Qubino Flush RGBW Dimmer" [[mkJC "00" "1" false false true; mkJC "20" "1" true false true; mkJC "25" "1" true false true; mkJC "26" "2" true false true; mkJC "33" "2" true false true; mkJC "59" "1" true false true; mkJC "5A" "1" true false true; mkJC "5E" "1" true false true; mkJC "70" "1" true false true; mkJC "72" "1" true false true; mkJC "73" "1" true false true; mkJC "7A" "1" true false true; mkJC "85" "2" true false true; mkJC "86" "2" true false true]].
Definition file414 := mkJF "ZMNHWD" "Goap" "0159" ["0001:0054"] "Qubino Flush RGBW Dimmer" [[mkJC "00" "1" false false true; mkJC "20" "1" true false true; mkJC "25" "1" true false true; mkJC "26" "2" true false true; mkJC "33" "2" true false true; mkJC "59" "1" true false true; mkJC "5A" "1" true false true; mkJC "5E" "1" true false true; mkJC "70" "1" true false true; mkJC "72" "1" true false true; mkJC "73" "1" true false true; mkJC "7A" "1" true false true; mkJC "85" "2" true false true; mkJC "86" "2" true false true]].
Definition file415 := mkJF "ZMNHZD" "Goap" "0159" ["0007:0053"] "Multifunctional Weather Station" [[mkJC "00" "1" false false true; mkJC "20" "1" false false true; mkJC "31" "5" false false true; mkJC "60" "2" false false true; mkJC "70" "1" false false true; mkJC "72" "1" false false true; mkJC "80" "1" false false true; mkJC "85" "1" false false true; mkJC "86" "1" false false true]; [mkJC "20" "0" false false true; mkJC "31" "5" false false true; mkJC "80" "1" false false true; mkJC "85" "1" false false true; mkJC "86" "1" false false true]; [mkJC "20" "0" false false true; mkJC "31" "5" false false true; mkJC "80" "1" false false true; mkJC "85" "1" false false true; mkJC "86" "1" false false true]; [mkJC "20" "0" false false true; mkJC "31" "5" false false true; mkJC "80" "1" false false true; mkJC "85" "1" false false true; mkJC "86" "1" false false true]; [mkJC "20" "0" false false true; mkJC "31" "5" false false true; mkJC "80" "1" false false true; mkJC "85" "1" false false true; mkJC "86" "1" false false true]; [mkJC "20" "0" false false true; mkJC "31" "5" false false true; mkJC "80" "1" false false true; mkJC "85" "1" false false true; mkJC "86" "1" false false true]; [mkJC "20" "0" false false true; mkJC "31" "5" false false true; mkJC "80" "1" false false true; mkJC "85" "1" false false true; mkJC "86" "1" false false true]; [mkJC "20" "0" false false true; mkJC "31" "5" false false true; mkJC "80" "1" false false true; mkJC "85" "1" false false true; mkJC "86" "1" false false true]; [mkJC "20" "0" false false true; mkJC "31" "5" false false true; mkJC "80" "1" false false true; mkJC "85" "1" false false true; mkJC "86" "1" false false true]; [mkJC "20" "0" false false true; mkJC "31" "5" false false true; mkJC "80" "1" false false true; mkJC "85" "1" false false true; mkJC "86" "1" false false true]; [mkJC "20" "0" false false true; mkJC "31" "5" false false true; mkJC "80" "1" false false true; mkJC "85" "1" false false true; mkJC "86" "1" false false true]].
Definition file416 := mkJF "TBZ48" "Residential Control Systems, Inc. (RCS)" "0010" ["5442:5432"] "Thermostat" [[mkJC "00" "1" false false true; mkJC "20" "1" false false true; mkJC "2B" "1" false false true; mkJC "31" "1" false false true; mkJC "40" "1" false false true; mkJC "42" "1" false false true; mkJC "43" "2" false false true; mkJC "44" "1" false false true; mkJC "45" "1" false false true; mkJC "70" "1" false false true; mkJC "72" "1" false false true; mkJC "80" "1" false false true; mkJC "85" "1" false false true; mkJC "86" "1" false false true; mkJC "8F" "1" false false true]].
Definition file417 := mkJF "TZ43" "Residential Control Systems, Inc. (RCS)" "0010" ["0001:0002"] "Thermostat" [[mkJC "00" "1" false false true; mkJC "20" "1" false false true; mkJC "31" "1" true false true; mkJC "40" "1" true false true; mkJC "42" "1" true false true; mkJC "43" "1" true false true; mkJC "44" "1" true false true; mkJC "45" "1" true false true; mkJC "70" "1" true false true; mkJC "72" "1" true false true; mkJC "76" "1" true false true; mkJC "81" "1" true false true; mkJC "85" "1" true false true; mkJC "86" "1" true false true]].
Definition file418 := mkJF "Reitz 05431" "Reitz-Group.de" "0064" ["2001:0000"] "Duewi ZW BJ ES 1000 / Reitz 05431 / ZWave.me 05457 Single button wall switch" [[mkJC "00" "1" false false true; mkJC "20" "1" false false true; mkJC "25" "1" true false true; mkJC "27" "1" true false true; mkJC "72" "1" true false true; mkJC "75" "1" true false true; mkJC "82" "1" true false true; mkJC "85" "1" true false true; mkJC "86" "1" true false true; mkJC "87" "1" true false true]].
Definition file419 := mkJF "05433" "Reitz-Group.de" "0064" ["0001:0000"] "One Paddle Wall Dimmer Insert" [[mkJC "00" "1" false false true; mkJC "20" "1" false false true; mkJC "26" "2" true false true; mkJC "27" "1" true false true; mkJC "72" "1" true false true; mkJC "75" "1" true false true; mkJC "82" "1" true false true; mkJC "85" "1" true false true; mkJC "86" "1" true false true; mkJC "87" "1" true false true]].
Definition file420 := mkJF "054375" "Reitz-Group.de" "0064" ["3001:0000"; "3002:0000"] "Schuko Plug Switch" [[mkJC "00" "1" false false true; mkJC "20" "1" false false true; mkJC "25" "1" true false true; mkJC "27" "1" true false true; mkJC "72" "1" true false true; mkJC "75" "1" true false true; mkJC "82" "1" true false true; mkJC "86" "1" true false true; mkJC "87" "1" true false true]].
Definition file421 := mkJF "Duwi ZW WS - 05443" "Reitz-Group.de" "0064" ["5002:0000"] "Battery powered One paddle wall controller" [[mkJC "00" "1" false false true; mkJC "20" "1" false false true; mkJC "72" "1" true false true; mkJC "80" "1" true false true; mkJC "85" "1" true false true]].
Definition file422 := mkJF "06436" "Reitz-Group.de" "0064" ["4001:0000"] "Insert blind control" [[mkJC "00" "1" false false true; mkJC "20" "1" false false true; mkJC "25" "1" true false true; mkJC "26" "1" true false true; mkJC "27" "1" true false true; mkJC "70" "1" true false true; mkJC "72" "1" true false true; mkJC "75" "1" true false true; mkJC "82" "1" true false true; mkJC "85" "1" true false true; mkJC "86" "1" true false true; mkJC "87" "1" true false true]].
Definition file423 := mkJF "064394" "Reitz-Group.de" "0064" ["1001:0000"] "Schuko Plug Dimmer" [[mkJC "00" "1" false false true; mkJC "20" "1" false false true; mkJC "26" "2" true false true; mkJC "27" "1" true false true; mkJC "72" "1" true false true; mkJC "75" "1" true false true; mkJC "82" "1" true false true; mkJC "86" "1" true false true; mkJC "87" "1" true false true]].
Definition file424 := mkJF "DUW_RPT" "Reitz-Group.de" "0064" ["5003:0000"] "Düwi Repeater" [[mkJC "00" "1" false false true; mkJC "20" "1" false false true; mkJC "71" "1" true false true; mkJC "72" "1" true false true; mkJC "80" "1" true false true; mkJC "86" "1" true false true; mkJC "87" "1" true false true]].
Definition file425 := mkJF "swiidplug" "Reitz-Group.de" "0064" ["0166:2007"] "SwiidPlug" [[mkJC "00" "1" false false true; mkJC "20" "1" false false true; mkJC "25" "1" true false true; mkJC "27" "1" true false true; mkJC "72" "1" true false true; mkJC "75" "1" true false true; mkJC "82" "1" true false true; mkJC "86" "1" true false true; mkJC "87" "1" true false true]].
Definition file426 := mkJF "ZME_05431" "Reitz-Group.de" "0064" ["1000:0009"] "Switch" [[mkJC "00" "1" false false true; mkJC "20" "1" true false true; mkJC "25" "1" true false true; mkJC "26" "0" false false true; mkJC "27" "1" true false true; mkJC "2B" "1" true false true; mkJC "2C" "1" true false true; mkJC "2D" "1" true false true; mkJC "32" "3" true false true; mkJC "59" "1" true false true; mkJC "5A" "1" true false true; mkJC "5E" "1" true false true; mkJC "70" "1" true false true; mkJC "72" "1" true false true; mkJC "73" "1" true false true; mkJC "75" "1" true false true; mkJC "77" "1" true false true; mkJC "85" "2" true false true; mkJC "86" "2" true false true; mkJC "87" "1" true false true; mkJC "8E" "2" true false true]].
Definition file427 := mkJF "POPP/ZWave.Me 05433-EX" "Reitz-Group.de" "0064" ["1000:0009"] "Zwave.Me Dimmer Set Everlux" [[mkJC "00" "1" false false true; mkJC "20" "1" true false true; mkJC "26" "3" true false true; mkJC "27" "1" true false true; mkJC "2B" "1" true false true; mkJC "2C" "1" true false true; mkJC "2D" "1" true false true; mkJC "32" "3" true false true; mkJC "59" "1" true false true; mkJC "5A" "1" true false true; mkJC "5E" "1" true false true; mkJC "70" "1" true false true; mkJC "72" "1" true false true; mkJC "73" "1" true false true; mkJC "75" "1" true false true; mkJC "77" "1" true false true; mkJC "85" "2" true false true; mkJC "86" "2" true false true; mkJC "87" "1" true false true; mkJC "8E" "2" true false true]].
Definition file428 := mkJF "ZW ESJ 300" "Reitz-Group.de" "0064" ["4001:0000"] "Duwi ZW ESJ 300 Blind Control" [[mkJC "25" "1" false false true; mkJC "26" "1" false false true; mkJC "27" "1" false false true; mkJC "70" "1" false false true; mkJC "72" "1" false false true; mkJC "75" "1" false false true; mkJC "82" "1" false false true; mkJC "85" "1" false false true; mkJC "86" "1" false false true; mkJC "87" "1" false false true]].
Definition file429 := mkJF "ZFM-80" "Remotec" "5254" ["8000:0002"] "Fixture Switch Module" [[mkJC "00" "1" false false true; mkJC "20" "1" false false true; mkJC "25" "1" false false true; mkJC "27" "1" false false true; mkJC "70" "1" false false true; mkJC "72" "1" false false true; mkJC "85" "1" false false true; mkJC "86" "1" false false true]].
Definition file430 := mkJF "ZRC-100" "Remotec" "5254" ["0001:8380"; "0002:8380"] "Remote Control" [[mkJC "00" "1" false false true; mkJC "20" "1" false false true; mkJC "21" "1" true false true; mkJC "2D" "1" true false true; mkJC "72" "1" true false true; mkJC "84" "1" true false true; mkJC "85" "1" true false true; mkJC "86" "1" true false true; mkJC "8E" "1" true false true; mkJC "98" "1" true false true]].
Definition file431 := mkJF "ZRC-90" "Remotec" "5254" ["0000:8510"; "0001:8510"; "0002:8510"] "Scene master 8 button remote" [[mkJC "00" "1" false false true; mkJC "20" "1" false false true; mkJC "21" "1" true false true; mkJC "59" "1" true false true; mkJC "5A" "1" true false true; mkJC "5B" "1" true false true; mkJC "5E" "1" true false true; mkJC "72" "1" true false true; mkJC "73" "1" true false true; mkJC "80" "1" true false true; mkJC "84" "2" true false true; mkJC "85" "1" true false true; mkJC "86" "1" true false true]].
Definition file432 := mkJF "ZTS-110" "Remotec" "5254" ["0200:8031"; "0202:8031"] "Remotec ZTS-110 Z Wave Thermostat" [[mkJC "00" "1" false false true; mkJC "20" "1" false false true; mkJC "31" "1" false false true; mkJC "40" "1" false false true; mkJC "42" "1" false false true; mkJC "43" "1" false false true; mkJC "44" "1" false false true; mkJC "45" "1" false false true; mkJC "70" "1" false false true; mkJC "72" "1" false false true; mkJC "80" "1" false false true; mkJC "85" "1" false false true; mkJC "86" "1" false false true]].
Definition file433 := mkJF "ZXT-120AU" "Remotec" "5254" ["0102:8377"] "Remotec ZXT-120 AC IR Remote" [].
Definition file434 := mkJF "ZXT-120" "Remotec" "5254" ["0101:8377"; "0102:8377"; "0100:8377"] "AC IR Remote" [[mkJC "00" "1" false false true; mkJC "20" "1" true false true; mkJC "27" "1" true false true; mkJC "31" "1" true false true; mkJC "40" "2" true false true; mkJC "43" "2" true false true; mkJC "44" "2" true false true; mkJC "70" "1" true false true; mkJC "72" "1" true false true; mkJC "80" "1" true false true; mkJC "86" "1" true false true]].
Definition file435 := mkJF "RaZberry Controller 2016 ZWave+" "R-import Ltd." "0147" ["0400:0001"; "0400:0002"] "Z-Wave.Me Razberry daughtercard" [[mkJC "00" "1" false false true; mkJC "20" "0" false false true]].
Definition file436 := mkJF "ZMEERAZ2" "R-import Ltd." "0147" ["0400:0002"] "RaZberry2" [[mkJC "00" "1" false false true; mkJC "20" "0" false false true]].
Definition file437 := mkJF "CT100" "Radio Thermostat Company of America (RTC)" "0098" ["6401:0015"; "6401:0105"; "6401:0106"; "6401:0107"; "6401:01FD"; "6501:000B"] "Z-Wave Thermostat" [[mkJC "00" "1" false false true; mkJC "20" "1" false false true; mkJC "31" "2" false false true; mkJC "40" "2" false false true; mkJC "42" "2" false false true; mkJC "43" "2" false false true; mkJC "44" "1" false false true; mkJC "45" "1" false false true; mkJC "60" "2" false false true; mkJC "70" "1" false false true; mkJC "72" "1" false false true; mkJC "80" "1" false false true; mkJC "81" "1" true false true; mkJC "85" "1" false false true; mkJC "86" "1" false false true; mkJC "87" "1" false false true]; [mkJC "20" "0" false false true; mkJC "31" "2" false false true; mkJC "85" "1" false false true]; [mkJC "20" "0" false false true; mkJC "31" "2" false false true; mkJC "85" "1" false false true]].
Definition file438 := mkJF "CT101" "Radio Thermostat Company of America" "0098" ["6501:000C"] "Z-Wave Thermostat" [].
Definition file439 := mkJF "CT110 Thermostat" "Radio Thermostat Company of America (RTC)" "0098" ["6E02:0101"] "CT-110 Thermostat. RadioThermostat company." [[mkJC "00" "1" false false true; mkJC "20" "1" false false true; mkJC "31" "5" false false true; mkJC "40" "2" false false true; mkJC "42" "2" false false true; mkJC "43" "2" false false true; mkJC "44" "1" false false true; mkJC "45" "1" false false true; mkJC "60" "2" false false true; mkJC "70" "1" false false true; mkJC "72" "1" false false true; mkJC "80" "1" false false true; mkJC "81" "1" false false true; mkJC "85" "1" false false true; mkJC "86" "1" false false true; mkJC "87" "1" false false true]; [mkJC "20" "0" false false true; mkJC "31" "5" false false true; mkJC "40" "2" false false true; mkJC "42" "2" false false true; mkJC "43" "2" false false true; mkJC "44" "1" false false true; mkJC "45" "1" false false true; mkJC "70" "1" false false true; mkJC "72" "1" false false true; mkJC "80" "1" false false true; mkJC "81" "1" false false true; mkJC "85" "1" false false true; mkJC "86" "1" false false true; mkJC "87" "1" false false true]; [mkJC "20" "0" false false true; mkJC "31" "5" false false true; mkJC "85" "1" false false true]].
Definition file440 := mkJF "CT30" "Radio Thermostat Company of America (RTC)" "0098" ["0001:001E"; "1E10:0158"; "1E12:015E"; "3200:015E"; "1E12:015C"; "0000:0000"] "Z-Wave Thermostat" [[mkJC "00" "1" false false true; mkJC "20" "1" false false true; mkJC "31" "2" false false true; mkJC "40" "2" false false true; mkJC "42" "1" false false true; mkJC "43" "2" false false true; mkJC "44" "1" false false true; mkJC "70" "1" false false true; mkJC "72" "1" false false true; mkJC "80" "1" false false true; mkJC "81" "1" false false true; mkJC "86" "1" false false true; mkJC "87" "1" false false true]].
Definition file441 := mkJF "CT32" "Radio Thermostat Company of America (RTC)" "0098" ["2002:0100"; "2002:0102"; "0002:0100"] "Z-Wave Thermostat" [[mkJC "00" "1" false false true; mkJC "20" "1" true false true; mkJC "31" "5" true false true; mkJC "40" "1" true false true; mkJC "42" "1" true false true; mkJC "43" "1" true false true; mkJC "44" "1" true false true; mkJC "45" "1" true false true; mkJC "59" "1" true false true; mkJC "5A" "1" true false true; mkJC "5E" "1" true false true; mkJC "60" "2" true false true; mkJC "70" "1" true false true; mkJC "72" "1" true false true; mkJC "73" "1" true false true; mkJC "80" "1" true false true; mkJC "81" "1" true false true; mkJC "85" "1" true false true; mkJC "86" "1" true false true; mkJC "87" "1" true false true]; [mkJC "20" "0" false false true; mkJC "31" "5" false false true; mkJC "40" "1" false false true; mkJC "42" "1" false false true; mkJC "43" "1" false false true; mkJC "44" "1" false false true; mkJC "45" "1" false false true; mkJC "59" "1" false false true; mkJC "5A" "1" false false true; mkJC "5E" "1" false false true; mkJC "70" "1" false false true; mkJC "72" "1" false false true; mkJC "73" "1" false false true; mkJC "80" "1" false false true; mkJC "81" "1" false false true; mkJC "85" "1" false false true; mkJC "86" "1" false false true; mkJC "87" "1" false false true]; [mkJC "20" "0" false false true; mkJC "31" "5" false false true; mkJC "85" "1" false false true]].
Definition file442 := mkJF "BE369" "Allegion" "003B" ["634B:5044"] "Keypad Deadbolt" [[mkJC "00" "1" false true true; mkJC "20" "1" false true true; mkJC "62" "1" false true true; mkJC "63" "1" false true true; mkJC "70" "1" false true true; mkJC "71" "1" false true true; mkJC "73" "1" false false true; mkJC "80" "1" false true true; mkJC "85" "1" false false true; mkJC "86" "1" false true true; mkJC "98" "1" false false true]].
Definition file443 := mkJF "BE468" "Allegion" "003B" ["6349:5044"] "Touchscreen Deadbolt" [[mkJC "00" "1" false false true; mkJC "20" "1" false false true; mkJC "22" "1" false false true; mkJC "62" "1" false false true; mkJC "63" "1" false false true; mkJC "70" "1" false false true; mkJC "71" "3" false false true; mkJC "72" "1" false false true; mkJC "7A" "1" false false true; mkJC "80" "1" false false true; mkJC "85" "1" false false true; mkJC "86" "1" false false true; mkJC "98" "1" false false true]].
Definition file444 := mkJF "BE469" "Allegion" "003B" ["6341:5044"] "Touchscreen Deadbolt" [[mkJC "00" "1" false false true; mkJC "20" "1" false true false; mkJC "22" "1" true false true; mkJC "62" "1" false true false; mkJC "63" "1" false true false; mkJC "70" "1" false true false; mkJC "71" "3" false true false; mkJC "72" "1" true false true; mkJC "7A" "0" true false true; mkJC "80" "1" false true false; mkJC "85" "1" false true false; mkJC "86" "1" true false true; mkJC "98" "0" true false true]].
Definition file445 := mkJF "FE599NX" "Allegion" "003B" ["634B:504C"] "Connected Keypad with Lever" [[mkJC "00" "1" false true true; mkJC "20" "1" false true true; mkJC "62" "0" false true false; mkJC "63" "1" false true false; mkJC "70" "1" false true false; mkJC "71" "1" false true false; mkJC "72" "1" true false true; mkJC "73" "1" true false true; mkJC "76" "1" false false true; mkJC "80" "1" false true false; mkJC "85" "1" true false true; mkJC "86" "1" false true false; mkJC "98" "1" true false true]].
Definition file446 := mkJF "Zwave Clamp" "Seco" "0301" ["0048:010F"] "Clamp Energy Meter" [[mkJC "00" "1" false false true; mkJC "20" "1" false false true; mkJC "32" "3" true false true; mkJC "3D" "1" true false true; mkJC "56" "0" true false true; mkJC "59" "1" true false true; mkJC "5A" "1" true false true; mkJC "5E" "1" true false true; mkJC "70" "1" true false true; mkJC "72" "1" true false true; mkJC "73" "1" true false true; mkJC "85" "2" true false true; mkJC "86" "2" true false true; mkJC "8A" "0" true false true; mkJC "8B" "1" true false true]].
Definition file447 := mkJF "11-01-011" "Sensative AB" "019A" ["0003:0003"] "Strips-MaZw" [[mkJC "00" "1" false false true; mkJC "20" "1" false false true; mkJC "30" "1" false false true; mkJC "70" "1" false false true; mkJC "71" "3" false false true; mkJC "72" "1" false false true; mkJC "80" "1" false false true; mkJC "84" "2" false false true; mkJC "85" "1" false false true; mkJC "86" "1" false false true]].
Definition file448 := mkJF "Door Sensor IN" "Shenzhen Neo Electronics Co., Ltd" "0258" ["0003:3082"] "Door Sensor" [[mkJC "00" "1" false false true; mkJC "20" "1" false false true; mkJC "30" "2" true false true; mkJC "59" "1" true false true; mkJC "5A" "1" true false true; mkJC "5E" "1" true false true; mkJC "70" "1" true false true; mkJC "71" "8" true false true; mkJC "72" "1" true false true; mkJC "73" "1" true false true; mkJC "80" "1" true false true; mkJC "84" "2" true false true; mkJC "85" "2" true false true; mkJC "86" "2" true false true]].
Definition file449 := mkJF "Door/Window Sensor" "Shenzhen Neo Electronics Co., Ltd" "0258" ["0003:1082"] "Door/Window Sensor" [[mkJC "00" "1" false false true; mkJC "20" "1" false false true; mkJC "30" "2" true false true; mkJC "59" "1" true false true; mkJC "5A" "1" true false true; mkJC "5E" "1" true false true; mkJC "70" "1" true false true; mkJC "71" "3" true false true; mkJC "72" "1" true false true; mkJC "73" "1" true false true; mkJC "80" "1" true false true; mkJC "84" "2" true false true; mkJC "85" "1" true false true; mkJC "86" "1" true false true]].
Definition file450 := mkJF "Flood sensor" "Shenzhen Neo Electronics Co., Ltd" "0258" ["0003:1085"] "Flood/water sensor" [[mkJC "00" "1" false false true; mkJC "20" "1" false false true; mkJC "30" "2" false false true; mkJC "59" "1" false false true; mkJC "5A" "1" false false true; mkJC "5E" "2" false false true; mkJC "70" "1" false false false; mkJC "71" "1" false false true; mkJC "72" "2" false false true; mkJC "73" "1" false false true; mkJC "80" "1" false false true; mkJC "84" "2" false false true; mkJC "85" "2" false false true; mkJC "86" "1" false false true]].
Definition file451 := mkJF "Motion Sensor" "Shenzhen Neo Electronics Co., Ltd" "0258" ["0003:1083"] "PIR Motion Sensor" [[mkJC "00" "1" false false true; mkJC "20" "1" false false true; mkJC "30" "2" true false true; mkJC "31" "7" true false true; mkJC "59" "1" true false true; mkJC "5A" "1" true false true; mkJC "5E" "1" true false true; mkJC "70" "1" true false true; mkJC "71" "3" true false true; mkJC "72" "1" true false true; mkJC "73" "1" true false true; mkJC "80" "1" true false true; mkJC "84" "2" true false true; mkJC "85" "1" true false true; mkJC "86" "1" true false true]].
Definition file452 := mkJF "Motion Sensor IN" "Shenzhen Neo Electronics Co., Ltd" "0258" ["0003:3083"] "Motion Sensor IN" [[mkJC "00" "1" false false true; mkJC "20" "1" false false true; mkJC "30" "2" true false true; mkJC "31" "7" true false true; mkJC "59" "1" true false true; mkJC "5A" "1" true false true; mkJC "5E" "1" true false true; mkJC "70" "1" true false true; mkJC "71" "8" true false true; mkJC "72" "1" true false true; mkJC "73" "1" true false true; mkJC "80" "1" true false true; mkJC "84" "2" true false true; mkJC "85" "2" true false true; mkJC "86" "2" true false true]].
Definition file453 := mkJF "NAS-DS01Z" "Shenzhen Neo Electronics Co., Ltd" "0258" ["0003:0082"] "Cyrus Door Window Sensor" [[mkJC "00" "1" false false true; mkJC "20" "1" false false true; mkJC "30" "2" true false true; mkJC "59" "1" true false true; mkJC "5A" "1" true false true; mkJC "5E" "1" true false true; mkJC "70" "1" true false true; mkJC "71" "3" true false true; mkJC "72" "1" true false true; mkJC "73" "1" true false true; mkJC "80" "1" true false true; mkJC "84" "2" true false true; mkJC "85" "1" true false true; mkJC "86" "2" true false true]].
Definition file454 := mkJF "Power Plug" "Shenzhen Neo Electronics Co., Ltd" "0258" ["0003:1087"] "Metered Wall Plug Switch" [[mkJC "00" "1" false false true; mkJC "20" "1" true false true; mkJC "25" "1" true false true; mkJC "27" "1" true false true; mkJC "32" "3" true false true; mkJC "59" "1" true false true; mkJC "5A" "1" true false true; mkJC "5E" "1" true false true; mkJC "70" "1" true false true; mkJC "71" "3" true false true; mkJC "72" "1" true false true; mkJC "73" "1" true false true; mkJC "85" "1" true false true; mkJC "86" "1" true false true]].
Definition file455 := mkJF "Siren Alarm" "Shenzhen Neo Electronics Co., Ltd" "0258" ["0003:1088"] "Siren Alarm" [[mkJC "00" "1" false false true; mkJC "20" "1" false false true; mkJC "25" "1" false false true; mkJC "70" "1" false false true; mkJC "71" "1" false false true; mkJC "72" "1" false false true; mkJC "80" "1" false false true; mkJC "85" "1" false false true; mkJC "86" "1" false false true]].
Definition file456 := mkJF "Sensoair" "SIEGENIA-AUBI KG" "0081" ["00A0:0001"] "Air quality sensor for indoor use" [[mkJC "00" "1" false false true; mkJC "20" "1" false false true; mkJC "31" "3" true false true; mkJC "70" "1" true false true; mkJC "72" "1" true false true; mkJC "73" "0" true false true; mkJC "85" "1" true false true; mkJC "86" "1" true false true; mkJC "9E" "1" true false true]].
Definition file457 := mkJF "K8" "Sigma Designs (Former Zensys)" "0000" ["0003:0003"] "Z-Wave Battery Wall Controller" [[mkJC "00" "1" false false true; mkJC "20" "1" false false true; mkJC "26" "1" true false true; mkJC "30" "0" false false false; mkJC "59" "1" true false true; mkJC "5A" "1" true false true; mkJC "5E" "1" true false true; mkJC "72" "1" true false true; mkJC "73" "1" true false true; mkJC "7A" "1" true false true; mkJC "80" "1" true false true; mkJC "84" "2" true false true; mkJC "85" "1" true false true; mkJC "86" "2" true false true]].
Definition file458 := mkJF "ZRTSI" "Somfy" "0047" ["5A52:5400"] "Z-Wave to RTS Interface Controller" [[mkJC "00" "1" false false true; mkJC "20" "1" false false true; mkJC "72" "1" false false true; mkJC "86" "1" false false true]].
Definition file459 := mkJF "ZRTSI-VNODE" "Somfy" "0047" ["5A52:5401"; "5A52:5402"; "5A52:5403"; "5A52:5404"; "5A52:5405"; "5A52:5406"; "5A52:5407"; "5A52:5408"; "5A52:5409"; "5A52:540A"; "5A52:540B"; "5A52:540C"; "5A52:540D"; "5A52:540E"; "5A52:540F"; "5A52:5410"] "Z-Wave to RTS Interface Virtual Node" [[mkJC "00" "1" false false true; mkJC "20" "1" false false true; mkJC "25" "1" false false true; mkJC "26" "3" false false true; mkJC "2B" "1" false false true; mkJC "72" "1" false false true; mkJC "86" "1" false false true]].
Definition file460 := mkJF "STZW402" "Stelpro" "0239" ["0001:0001"] "4000W Thermostat" [[mkJC "00" "1" false false true; mkJC "20" "1" true false true; mkJC "31" "1" true false true; mkJC "40" "2" true false true; mkJC "42" "1" true false true; mkJC "43" "2" true false true; mkJC "59" "0" true false true; mkJC "5A" "1" true false true; mkJC "5E" "1" true false true; mkJC "72" "1" true false true; mkJC "73" "1" true false true; mkJC "85" "1" true false true; mkJC "86" "1" true false true]].
Definition file461 := mkJF "SW-ZCS-1" "Swiid" "0166" ["0100:0100"] "Cord Switch" [[mkJC "00" "1" false false true; mkJC "20" "1" false false true; mkJC "25" "1" true false true; mkJC "27" "1" true false true; mkJC "72" "1" true false true; mkJC "85" "1" true false true; mkJC "86" "1" true false true]].
Definition file462 := mkJF "29990" "Systemair Sverige AS" "0276" ["0139:0001"] "Remotely Controlled Ventilation" [[mkJC "00" "1" false false true; mkJC "20" "1" false false true; mkJC "22" "1" true false true; mkJC "25" "1" true false true; mkJC "40" "1" true false true; mkJC "43" "1" true false true; mkJC "44" "1" true false true; mkJC "59" "1" true false true; mkJC "5A" "1" true false true; mkJC "5E" "1" true false true; mkJC "70" "1" true false true; mkJC "71" "3" true false true; mkJC "72" "1" true false true; mkJC "73" "1" true false true; mkJC "7A" "1" true false true; mkJC "85" "2" true false true; mkJC "86" "2" true false true]].
Definition file463 := mkJF "TZDW-100" "Telldus Technologies AB" "0176" ["0005:0001"] "Door/window sensor" [[mkJC "00" "1" false false true; mkJC "20" "1" false false true; mkJC "30" "2" false false true; mkJC "5A" "1" false false true; mkJC "5E" "2" false false true; mkJC "70" "1" false false true; mkJC "71" "4" false false true; mkJC "72" "1" false false true; mkJC "73" "1" false false true; mkJC "7A" "2" false false true; mkJC "80" "1" false false true; mkJC "84" "2" false false true; mkJC "85" "2" false false true; mkJC "86" "2" false false true; mkJC "8E" "2" false false true]].
Definition file464 := mkJF "TZWP-100" "Telldus Technologies AB" "0176" ["0003:0001"] "Wall Plug Switch" [[mkJC "00" "1" false false true; mkJC "20" "1" false false true; mkJC "25" "1" true false true; mkJC "27" "1" true false true; mkJC "59" "1" true false true; mkJC "5A" "1" true false true; mkJC "5E" "1" true false true; mkJC "70" "1" true false true; mkJC "72" "1" true false true; mkJC "73" "1" true false true; mkJC "75" "2" true false true; mkJC "7A" "1" true false true; mkJC "85" "1" true false true; mkJC "86" "1" true false true]].
Definition file465 := mkJF "TF016" "ThermoFloor" "019B" ["0001:0001"] "ZWave Thermostat" [[mkJC "00" "1" false false true; mkJC "20" "1" false false true; mkJC "31" "6" true false true; mkJC "32" "3" false false false; mkJC "40" "1" true false true; mkJC "43" "1" true false true; mkJC "59" "1" true false true; mkJC "5A" "1" true false true; mkJC "5E" "1" true false true; mkJC "70" "1" true false true; mkJC "72" "1" true false true; mkJC "73" "1" true false true; mkJC "85" "1" true false true; mkJC "86" "1" true false true]].
Definition file466 := mkJF "TF016" "ThermoFloor" "019B" ["0001:0001"] "ZWave Thermostat" [[mkJC "00" "1" false false true; mkJC "20" "1" false false true; mkJC "31" "5" false false true; mkJC "40" "2" false false true; mkJC "43" "2" false false true; mkJC "70" "1" false false true; mkJC "72" "1" false false true; mkJC "85" "1" false false true; mkJC "86" "1" false false true]].
Definition file467 := mkJF "TSM02" "TKB Home" "0118" ["0002:0002"] "Slim Multi-Sensor" [[mkJC "00" "1" false false true; mkJC "20" "1" false false true; mkJC "30" "2" true false true; mkJC "31" "5" true false true; mkJC "70" "1" true false true; mkJC "72" "1" true false true; mkJC "80" "1" true false true; mkJC "84" "2" true false true; mkJC "85" "1" true false true; mkJC "86" "1" true false true]].
Definition file468 := mkJF "TZ08" "TKB Home" "0118" ["0001:0006"] "Rollershutter Controller" [[mkJC "00" "1" false false true; mkJC "20" "1" false false true; mkJC "25" "1" false false true; mkJC "26" "3" false false true; mkJC "2B" "1" false false true; mkJC "32" "3" false false true; mkJC "70" "1" false false true; mkJC "71" "1" false false true; mkJC "72" "1" false false true; mkJC "85" "1" false false true; mkJC "86" "1" false false true]].
Definition file469 := mkJF "TZ37" "TKB Home" "0118" ["0311:0203"] "Z-Wave TKB Double Relay Wall Switch" [[mkJC "00" "1" false false true; mkJC "20" "1" false false true; mkJC "25" "1" false false true; mkJC "27" "1" false false true; mkJC "2B" "1" false false true; mkJC "2C" "1" false false true; mkJC "59" "1" false false true; mkJC "5A" "1" false false true; mkJC "5E" "1" false false true; mkJC "60" "2" false false true; mkJC "70" "1" false false true; mkJC "72" "1" false false true; mkJC "73" "1" false false true; mkJC "7A" "1" false false true; mkJC "85" "2" false false true; mkJC "86" "2" false false true]; [mkJC "20" "0" false false true; mkJC "25" "1" false false true]; [mkJC "20" "0" false false true; mkJC "25" "1" false false true]].
Definition file470 := mkJF "TZ55D" "TKB Home" "0118" ["0003:0004"] "Dual Paddle Wall Dimmer" [[mkJC "00" "1" false false true; mkJC "20" "1" true false true; mkJC "26" "1" true false true; mkJC "27" "1" true false true; mkJC "2B" "1" true false true; mkJC "2C" "1" true false true; mkJC "59" "1" true false true; mkJC "5A" "1" true false true; mkJC "5E" "1" true false true; mkJC "70" "1" true false true; mkJC "72" "1" true false true; mkJC "73" "1" true false true; mkJC "7A" "1" true false true; mkJC "85" "2" true false true; mkJC "86" "2" true false true]].
Definition file471 := mkJF "TZ65D" "TKB Home" "0118" ["0004:0003"; "0808:0808"] "Dual Paddle Wall Dimmer" [[mkJC "00" "1" false false true; mkJC "20" "1" false false true; mkJC "26" "1" true false true; mkJC "27" "0" true false true; mkJC "70" "1" true false true; mkJC "72" "1" true false true; mkJC "85" "1" true false true; mkJC "86" "1" true false true]].
Definition file472 := mkJF "TZ66D" "TKB Home" "0118" ["0102:1020"] "Dual Paddle Wall Switch" [[mkJC "00" "1" false false true; mkJC "20" "1" false false true; mkJC "25" "1" true false true; mkJC "27" "0" true false true; mkJC "70" "1" true false true; mkJC "72" "1" true false true; mkJC "73" "0" true false true; mkJC "85" "1" true false true; mkJC "86" "1" true false true]].
Definition file473 := mkJF "TZ67" "TKB Home" "0118" ["0003:0008"; "0202:0611"] "Wall Plug Dimmer" [[mkJC "00" "1" false false true; mkJC "20" "1" false false true; mkJC "26" "1" true false true; mkJC "27" "0" true false true; mkJC "70" "1" true false true; mkJC "72" "1" true false true; mkJC "75" "0" true false true; mkJC "77" "0" true false true; mkJC "86" "1" true false true]].
Definition file474 := mkJF "TZ68" "TKB Home" "0118" ["0003:0002"; "0101:0103"] "Wall Plug" [[mkJC "00" "1" false false true; mkJC "20" "1" false false true; mkJC "25" "1" true false true; mkJC "27" "1" true false true; mkJC "70" "1" true false true; mkJC "72" "1" true false true; mkJC "86" "1" true false true]].
Definition file475 := mkJF "TZ69" "TKB Home" "0118" ["0004:0002"] "Smart meter switch" [[mkJC "00" "1" false false true; mkJC "20" "1" false false true; mkJC "25" "1" false false true; mkJC "27" "1" false false true; mkJC "32" "3" false false true; mkJC "70" "1" false false true; mkJC "72" "1" false false true; mkJC "85" "1" false false true; mkJC "86" "1" false false true]].
Definition file476 := mkJF "TZ88" "TKB Home" "0118" ["0001:0001"; "0001:0011"] "Energy Monitoring Wall Plug" [[mkJC "00" "1" false false true; mkJC "20" "1" true false true; mkJC "25" "1" true false true; mkJC "27" "0" true false true; mkJC "32" "3" true false true; mkJC "70" "1" true false true; mkJC "72" "1" true false true; mkJC "85" "1" true false true; mkJC "86" "1" true false true]].
Definition file477 := mkJF "AZEMT500BB32MA" "Trane Corporation" "008B" ["5452:5435"] "American Standard Z-Wave Programmable Thermostat" [[mkJC "00" "1" false false true; mkJC "20" "1" true false true; mkJC "2B" "1" true false true; mkJC "2C" "1" true false true; mkJC "31" "1" true false true; mkJC "40" "1" true false true; mkJC "42" "1" true false true; mkJC "43" "1" true false true; mkJC "44" "1" true false true; mkJC "45" "1" true false true; mkJC "70" "1" true false true; mkJC "72" "1" true false true; mkJC "73" "1" true false true; mkJC "81" "1" true false true; mkJC "85" "1" true false true; mkJC "86" "1" true false true]].
Definition file478 := mkJF "TZEMT400BB32MAA" "Trane Corporation" "008B" ["5452:5431"; "5452:5433"; "5452:5436"] "Trane Z-Wave Programmable Thermostat" [[mkJC "00" "1" false false true; mkJC "20" "1" false false true; mkJC "31" "1" true false true; mkJC "40" "1" true false true; mkJC "42" "1" true false true; mkJC "43" "1" true false true; mkJC "44" "1" true false true; mkJC "45" "1" true false true; mkJC "70" "1" true false true; mkJC "72" "1" true false true; mkJC "76" "0" true false true; mkJC "81" "1" true false true; mkJC "85" "1" true false true; mkJC "86" "1" true false true]].
Definition file479 := mkJF "XL624" "Trane Corporation" "008B" ["5452:5439"; "5452:5443"] "Touchscreen Comfort Control Thermostat" [[mkJC "00" "1" false false true; mkJC "20" "1" false false true; mkJC "2B" "1" false false true; mkJC "31" "5" false false true; mkJC "40" "1" false false true; mkJC "42" "2" false false true; mkJC "43" "2" false false true; mkJC "44" "2" false false true; mkJC "45" "1" false false true; mkJC "70" "1" false false true; mkJC "72" "1" false false true; mkJC "85" "1" false false true; mkJC "86" "1" false false true; mkJC "8F" "1" false false true]].
Definition file480 := mkJF "Trane XR524" "Trane Corporation" "008B" ["5452:5442"] "Touchscreen Comfort Control Thermostat" [[mkJC "00" "1" false false true; mkJC "20" "1" false false true; mkJC "2B" "1" true false true; mkJC "2C" "0" true false true; mkJC "31" "5" true false true; mkJC "40" "1" true false true; mkJC "42" "2" true false true; mkJC "43" "2" true false true; mkJC "44" "2" true false true; mkJC "45" "1" true false true; mkJC "70" "1" true false true; mkJC "72" "1" true false true; mkJC "73" "1" true false true; mkJC "7A" "0" true false true; mkJC "81" "1" true false true; mkJC "85" "1" true false true; mkJC "86" "1" true false true; mkJC "8F" "1" true false true]].
Definition file481 := mkJF "GR-105" "UFairy G.R. Tech" "0152" ["0003:0512"] "Water Shutoff Valve" [[mkJC "00" "1" false false true; mkJC "20" "1" false false true; mkJC "25" "1" false false true; mkJC "27" "1" false false true; mkJC "59" "1" false false true; mkJC "5A" "1" false false true; mkJC "5E" "1" false false true; mkJC "72" "1" false false true; mkJC "73" "1" false false true; mkJC "85" "1" false false true; mkJC "86" "2" false false true]].
Definition file482 := mkJF "GR-M-202N-2" "UFairy G.R. Tech" "0152" ["0500:0004"] "Inwall dual switch" [[mkJC "00" "1" false false true; mkJC "20" "1" false false true; mkJC "25" "1" false false true; mkJC "27" "1" false false true; mkJC "59" "1" false false true; mkJC "5A" "1" false false true; mkJC "5E" "1" false false true; mkJC "60" "2" false false true; mkJC "72" "1" false false true; mkJC "73" "1" false false true; mkJC "85" "2" false false true; mkJC "86" "2" false false true]; [mkJC "20" "0" false false true; mkJC "25" "1" false false true]; [mkJC "20" "0" false false true; mkJC "25" "1" false false true]].
Definition file483 := mkJF "UFairy 2gang wall switch" "UFairy G.R. Tech" "0152" ["0500:0004"] "Inwall dual switch" [[mkJC "00" "1" false false true; mkJC "20" "1" false false true; mkJC "25" "1" false false true; mkJC "27" "1" false false true; mkJC "59" "1" false false true; mkJC "5A" "1" false false true; mkJC "5E" "1" false false true; mkJC "60" "2" false false true; mkJC "72" "1" false false true; mkJC "73" "1" false false true; mkJC "85" "2" false false true; mkJC "86" "2" false false true]; [mkJC "20" "0" false false true; mkJC "25" "1" false false true]; [mkJC "20" "0" false false true; mkJC "25" "1" false false true]].
Definition file484 := mkJF "ZSE02" "UFairy G.R. Tech" "0152" ["0500:0003"] "Zooz Z‑Wave Plus Motion Sensor" [[mkJC "00" "1" false false true; mkJC "20" "1" false false true; mkJC "30" "0" false false true; mkJC "59" "1" true false true; mkJC "5A" "1" true false true; mkJC "5E" "1" true false true; mkJC "71" "4" true false true; mkJC "72" "1" true false true; mkJC "73" "1" true false true; mkJC "80" "1" true false true; mkJC "84" "2" true false true; mkJC "85" "2" true false true; mkJC "86" "2" true false true]].
Definition file485 := mkJF "Vitrum III EU Dimmer" "VDA" "010A" ["1100:4B00"] "" [[mkJC "00" "1" false false true; mkJC "20" "1" false false true; mkJC "26" "1" true false true; mkJC "27" "1" true false true; mkJC "60" "2" true false true; mkJC "72" "1" true false true; mkJC "77" "1" true false true; mkJC "85" "1" true false true; mkJC "86" "1" true false true; mkJC "87" "1" true false true; mkJC "8E" "1" true false true; mkJC "91" "0" true false true]; [mkJC "20" "0" false false true; mkJC "26" "1" false false true; mkJC "72" "1" false false true; mkJC "86" "1" false false true]; [mkJC "20" "0" false false true; mkJC "26" "1" false false true; mkJC "72" "1" false false true; mkJC "86" "1" false false true]; [mkJC "20" "0" false false true; mkJC "26" "1" false false true; mkJC "72" "1" false false true; mkJC "86" "1" false false true]].
Definition file486 := mkJF "PID11995" "Vision Security" "0109" ["2007:0703"] "Monoprice ZWave On/Off Plugin" [[mkJC "00" "1" false false true; mkJC "20" "1" false false true; mkJC "25" "1" true false true; mkJC "27" "1" true false true; mkJC "72" "1" true false true; mkJC "75" "1" true false true; mkJC "86" "1" true false true]].
Definition file487 := mkJF "PID15903" "Vision Security" "0109" ["201A:1AA4"] "Plug In Power Monitor" [[mkJC "00" "1" false false true; mkJC "20" "1" false false true; mkJC "22" "1" true false true; mkJC "25" "1" true false true; mkJC "27" "1" true false true; mkJC "32" "3" true false true; mkJC "59" "1" true false true; mkJC "5A" "1" true false true; mkJC "5E" "1" true false true; mkJC "70" "1" true false true; mkJC "72" "1" true false true; mkJC "73" "1" true false true; mkJC "7A" "1" true false true; mkJC "85" "2" true false true; mkJC "86" "2" true false true; mkJC "98" "0" true false true]].
Definition file488 := mkJF "ZD2102" "Vision Security" "0109" ["2001:0102"; "2001:0105"; "2001:0106"] "Door Window Sensor" [[mkJC "00" "1" true false true; mkJC "20" "1" false false true; mkJC "59" "1" true false true; mkJC "5A" "1" true false true; mkJC "70" "1" false false true; mkJC "71" "1" false false true; mkJC "72" "1" false false true; mkJC "7A" "1" true false true; mkJC "80" "1" false false true; mkJC "84" "2" false false true; mkJC "85" "1" false false true; mkJC "86" "1" false false true; mkJC "98" "0" true false false]].
Definition file489 := mkJF "ZD2105" "Vision Security" "0109" ["2022:2201"] "Recessed Door Window Sensor" [[mkJC "00" "1" false false true; mkJC "20" "1" false false true; mkJC "30" "0" false false true; mkJC "59" "1" true false true; mkJC "5A" "1" true false true; mkJC "5E" "1" true false true; mkJC "71" "3" true false true; mkJC "72" "1" true false true; mkJC "73" "1" true false true; mkJC "7A" "1" true false true; mkJC "80" "1" true false true; mkJC "84" "2" true false true; mkJC "85" "1" true false true; mkJC "86" "2" true false true]].
Definition file490 := mkJF "ZD2201" "Vision Security" "0109" ["201F:1F10"] "Multisensor 4in1" [[mkJC "00" "1" false false true; mkJC "20" "1" false false true; mkJC "31" "5" false false true; mkJC "70" "1" false false true; mkJC "71" "1" false false true; mkJC "72" "1" false false true; mkJC "80" "1" false false true; mkJC "84" "2" false false true; mkJC "85" "1" false false true; mkJC "86" "1" false false true]].
Definition file491 := mkJF "ZG8101" "Vision Security" "0109" ["200A:0A02"] "Garage Door Tilt Sensor" [[mkJC "00" "1" false false true; mkJC "20" "1" false false true; mkJC "30" "1" false false true; mkJC "71" "1" false false true; mkJC "72" "1" false false true; mkJC "80" "1" false false true; mkJC "84" "2" false false true; mkJC "85" "1" false false true; mkJC "86" "1" false false true]].
Definition file492 := mkJF "ZL7101" "Vision Security" "0109" ["2008:0801"] "Lamp Dimmer Module" [[mkJC "26" "1" true false true; mkJC "27" "1" true false true; mkJC "72" "1" true false true; mkJC "75" "1" true false true; mkJC "86" "1" true false true]].
Definition file493 := mkJF "ZL7431" "Vision Security" "0109" ["200C:0C02"; "200C:0C06"; "2016:1616"] "In Wall Relay Switch" [[mkJC "00" "1" false false true; mkJC "20" "1" false false true; mkJC "25" "1" true false true; mkJC "27" "1" true false true; mkJC "70" "1" true false true; mkJC "72" "1" true false true; mkJC "85" "1" true false true; mkJC "86" "1" true false true]].
Definition file494 := mkJF "ZL7432" "Vision Security" "0109" ["2017:1717"] "In Wall Dual Relay Switch" [[mkJC "00" "1" false false true; mkJC "20" "1" false false true; mkJC "25" "1" false false true; mkJC "27" "1" false false true; mkJC "60" "2" false false true; mkJC "72" "1" false false true; mkJC "85" "1" false false true; mkJC "86" "1" false false true]; [mkJC "20" "0" false false true; mkJC "25" "1" false false true]; [mkJC "20" "0" false false true; mkJC "25" "1" false false true]].
Definition file495 := mkJF "ZM1601" "Vision Security" "0109" ["2005:0503"; "2005:0508"] "Battery Operated Siren" [[mkJC "00" "1" false false true; mkJC "20" "0" false false true; mkJC "25" "1" false false true; mkJC "59" "1" false false true; mkJC "5A" "1" false false true; mkJC "5E" "1" false false true; mkJC "70" "1" false false true; mkJC "71" "4" false false true; mkJC "72" "1" false false true; mkJC "73" "1" false false true; mkJC "7A" "1" false false true; mkJC "80" "1" false false true; mkJC "85" "2" false false true; mkJC "86" "2" false false true]].
Definition file496 := mkJF "ZM1602" "Vision Security" "0109" ["2009:0903"; "2009:0908"] "AC/DC Siren" [[mkJC "00" "1" false false true; mkJC "20" "1" false false true; mkJC "25" "1" false false true; mkJC "70" "1" false false true; mkJC "72" "1" false false true; mkJC "86" "1" false false true]].
Definition file497 := mkJF "ZM1702" "Vision Security" "0109" ["2006:0620"; "2006:0621"] "Door Lock with Handle" [[mkJC "20" "1" false true false; mkJC "4C" "1" false true false; mkJC "4E" "2" false true false; mkJC "62" "1" false true false; mkJC "63" "1" false true false; mkJC "72" "1" true true true; mkJC "80" "1" true true true; mkJC "85" "1" false true false; mkJC "86" "1" true true true; mkJC "8B" "1" false true false; mkJC "98" "1" true false true]].
Definition file498 := mkJF "ZP3102" "Vision Security" "0109" ["2002:0201"; "2002:0202"; "2002:0203"; "2002:0204"; "2002:0205"] "Motion Sensor" [[mkJC "00" "1" false false true; mkJC "20" "1" false false true; mkJC "30" "1" false false true; mkJC "31" "4" false false true; mkJC "70" "1" false false true; mkJC "71" "1" false false true; mkJC "72" "1" false false true; mkJC "80" "1" false false true; mkJC "84" "2" false false true; mkJC "85" "1" false false true; mkJC "86" "1" false false true]].
Definition file499 := mkJF "ZP3102" "Vision Security" "0109" ["2002:0205"] "Motion/Temperature Sensor" [[mkJC "00" "1" false false true; mkJC "20" "1" false false true; mkJC "30" "0" false false true; mkJC "31" "5" true false true; mkJC "59" "1" true false true; mkJC "5A" "1" true false true; mkJC "5E" "1" true false true; mkJC "70" "1" true false true; mkJC "71" "4" true false true; mkJC "72" "1" true false true; mkJC "73" "1" true false true; mkJC "7A" "1" true false true; mkJC "80" "1" true false true; mkJC "84" "2" true false true; mkJC "85" "2" true false true; mkJC "86" "2" true false true; mkJC "98" "0" true false true]].
Definition file500 := mkJF "ZP3103" "Vision Security" "0109" ["2003:0302"] "Shock Sensor" [[mkJC "00" "1" false false true; mkJC "20" "1" false false true; mkJC "30" "1" false false true; mkJC "71" "1" false false true; mkJC "72" "1" false false true; mkJC "80" "1" false false true; mkJC "84" "2" false false true; mkJC "85" "1" false false true; mkJC "86" "1" false false true]].
Definition file501 := mkJF "ZS5101" "Vision Security" "0109" ["2003:0306"; "2003:0307"] "Shock Sensor" [[mkJC "00" "1" false false true; mkJC "20" "1" false false true; mkJC "30" "0" false false true; mkJC "59" "1" true false true; mkJC "5A" "1" true false true; mkJC "5E" "1" true false true; mkJC "71" "4" true false true; mkJC "72" "1" true false true; mkJC "73" "1" true false true; mkJC "7A" "1" true false true; mkJC "80" "1" true false true; mkJC "84" "2" true false true; mkJC "85" "2" true false true; mkJC "86" "2" true false true; mkJC "98" "0" true false true]].
Definition file502 := mkJF "ZS6101" "Vision Security" "0109" ["2004:0403"] "Smoke Detector" [[mkJC "00" "1" false false true; mkJC "20" "1" false false true; mkJC "30" "1" false false true; mkJC "71" "1" false false true; mkJC "72" "1" false false true; mkJC "80" "1" false false true; mkJC "84" "2" false false true; mkJC "85" "1" false false true; mkJC "86" "1" false false true]].
Definition file503 := mkJF "ZS6301" "Vision Security" "0109" ["200F:0F03"] "CO Detector" [[mkJC "00" "1" false false true; mkJC "20" "1" false false true; mkJC "30" "1" true false true; mkJC "71" "2" true false true; mkJC "72" "1" true false true; mkJC "80" "1" true false true; mkJC "84" "2" true false true; mkJC "85" "1" true false true; mkJC "86" "1" true false true]].
Definition file504 := mkJF "ZSE40" "Vision Security" "0109" ["2021:2101"] "Zooz 4-in-one motion/temperature/humidity/luminance sensor" [[mkJC "00" "1" false false true; mkJC "20" "1" false false true; mkJC "31" "7" false false true; mkJC "59" "1" false false true; mkJC "5A" "1" false false true; mkJC "5E" "2" false false true; mkJC "70" "1" false false true; mkJC "71" "1" false false true; mkJC "72" "1" false false true; mkJC "73" "1" false false true; mkJC "80" "1" false false true; mkJC "84" "2" false false true; mkJC "85" "2" false false true; mkJC "86" "2" false false true; mkJC "98" "1" false false true]].
Definition file505 := mkJF "ZW4101" "Vision Security" "0109" ["200D:0D03"] "Drapery controller (up/stop/down)" [[mkJC "00" "1" false false true; mkJC "20" "1" false false true; mkJC "25" "1" false false true; mkJC "26" "3" false false true; mkJC "70" "1" false false true; mkJC "72" "1" false false true; mkJC "86" "1" false false true]].
Definition file506 := mkJF "WiDom Universal Relay Switch" "wiDom" "0149" ["0012:0104"] "WiDom Universal Relay Switch" [[mkJC "00" "1" false false true; mkJC "20" "1" false false true; mkJC "25" "1" false false true; mkJC "27" "1" false false true; mkJC "70" "1" false false true; mkJC "72" "1" false false true; mkJC "77" "1" false false true; mkJC "85" "1" false false true; mkJC "86" "1" false false true]].
Definition file507 := mkJF "WDS" "wiDom" "0149" ["1214:0504"] " Universal Double Switch" [[mkJC "00" "1" false false true; mkJC "20" "1" false false true; mkJC "25" "1" false false true; mkJC "27" "1" false false true; mkJC "32" "3" false false true; mkJC "60" "2" false false true; mkJC "70" "1" false false true; mkJC "72" "1" false false true; mkJC "85" "1" false false true; mkJC "86" "1" false false true]; [mkJC "20" "0" false false true; mkJC "25" "1" false false true; mkJC "32" "3" false false true]; [mkJC "20" "0" false false true; mkJC "25" "1" false false true; mkJC "32" "3" false false true]].
Definition file508 := mkJF "WPS104" "wiDom" "0149" ["1214:0304"] "Energy Driven Switch" [[mkJC "00" "1" false false true; mkJC "20" "0" false false true; mkJC "25" "1" false false true; mkJC "27" "1" false false true; mkJC "31" "3" false false true; mkJC "32" "3" false false true; mkJC "59" "1" false false true; mkJC "5A" "1" false false true; mkJC "5E" "1" false false true; mkJC "70" "1" false false true; mkJC "72" "1" false false true; mkJC "73" "1" false false true; mkJC "7A" "1" false false true; mkJC "85" "2" false false true; mkJC "86" "2" false false true]].
Definition file509 := mkJF "ZEN20" "Willis Electric Co., Ltd." "015D" ["0651:F51C"] "Smart Energy Power Strip" [[mkJC "20" "0" false false false; mkJC "25" "1" false false false]; [mkJC "20" "0" false false false; mkJC "25" "1" false false false]; [mkJC "20" "0" false false false; mkJC "25" "1" false false false]; [mkJC "20" "0" false false false; mkJC "25" "1" false false false]; [mkJC "20" "0" false false false; mkJC "25" "1" false false false]].
Definition file510 := mkJF "ZEN21" "Willis Electric Co., Ltd." "015D" ["0111:231C"] "Zooz Z-Wave On / Off Light Switch ZEN21" [[mkJC "00" "1" false false true; mkJC "20" "1" false false true; mkJC "25" "1" true false true; mkJC "27" "1" true false true; mkJC "59" "1" true false true; mkJC "5A" "1" true false true; mkJC "5E" "1" true false true; mkJC "70" "1" true false true; mkJC "72" "1" true false true; mkJC "73" "1" true false true; mkJC "85" "2" true false true; mkJC "86" "2" true false true]].
Definition file511 := mkJF "ZEN23" "Willis Electric Co., Ltd." "015D" ["1111:1E1C"] "Wall mounted switch" [[mkJC "00" "1" false false true; mkJC "20" "1" false false true; mkJC "25" "1" true false true; mkJC "27" "1" true false true; mkJC "59" "1" true false true; mkJC "5A" "1" true false true; mkJC "5E" "1" true false true; mkJC "70" "1" true false true; mkJC "72" "1" true false true; mkJC "73" "1" true false true; mkJC "85" "2" true false true; mkJC "86" "2" true false true]].
Definition file512 := mkJF "Zen24" "Willis Electric Co., Ltd." "015D" ["0111:1F1C"] "Toggle Dimmer" [[mkJC "00" "1" false false true; mkJC "20" "1" false false true; mkJC "26" "1" true false true; mkJC "27" "1" true false true; mkJC "59" "1" true false true; mkJC "5A" "1" true false true; mkJC "5E" "1" true false true; mkJC "70" "1" true false true; mkJC "72" "1" true false true; mkJC "73" "1" true false true; mkJC "85" "2" true false true; mkJC "86" "2" true false true]].
Definition file513 := mkJF "ZW37" "Willis Electric Co., Ltd." "015D" ["0221:251C"] "show home, Inovelli 2 channel smart plug" [[mkJC "00" "1" false false true; mkJC "20" "0" false false true; mkJC "25" "1" false false true; mkJC "27" "1" false false true; mkJC "59" "1" false false true; mkJC "5A" "1" false false true; mkJC "5E" "1" false false true; mkJC "60" "2" false false true; mkJC "72" "1" false false true; mkJC "73" "1" false false true; mkJC "85" "2" false false true; mkJC "86" "2" false false true; mkJC "8E" "3" false false true]; [mkJC "20" "0" false false true; mkJC "25" "1" false false true; mkJC "27" "1" false false true; mkJC "59" "1" false false true; mkJC "5E" "1" false false true; mkJC "85" "2" false false true; mkJC "86" "2" false false true; mkJC "8E" "3" false false true]; [mkJC "20" "0" false false true; mkJC "25" "1" false false true; mkJC "59" "1" false false true; mkJC "5E" "1" false false true]].
Definition file514 := mkJF "iModuleDouble" "Wintop" "0097" ["1122:5501"] "Dual In-wall Switch" [[mkJC "00" "1" true false true; mkJC "20" "1" true false true; mkJC "25" "1" true false true; mkJC "27" "1" true false true; mkJC "2B" "1" true false true; mkJC "2C" "1" true false true; mkJC "60" "2" true false true; mkJC "72" "1" true false true; mkJC "86" "1" true false true]; [mkJC "00" "1" false false true; mkJC "20" "0" false false true; mkJC "27" "1" false false true]; [mkJC "00" "1" false false true; mkJC "20" "0" false false true; mkJC "27" "1" false false true]].
Definition file515 := mkJF "PlugInSwitch" "Wintop" "0097" ["6943:5501"] "PlugIn Switch with power monitoring" [[mkJC "00" "1" false false true; mkJC "20" "1" false false true; mkJC "25" "1" true false true; mkJC "27" "1" true false true; mkJC "31" "1" true false true; mkJC "32" "2" true false true; mkJC "70" "1" true false true; mkJC "72" "1" true false true; mkJC "73" "1" true false true; mkJC "75" "1" true false true; mkJC "85" "1" true false true; mkJC "86" "1" true false true]].
Definition file516 := mkJF "DHSZWDMIW01" "Wintop" "0097" ["1200:5502"] "DHS Z-Wave Micro Dimmer" [[mkJC "00" "1" false false true; mkJC "20" "1" false false true; mkJC "26" "1" false false true; mkJC "27" "1" false false true; mkJC "2B" "1" false false true; mkJC "70" "1" false false true; mkJC "72" "1" false false true; mkJC "85" "1" false false true; mkJC "86" "1" false false true]].
Definition file517 := mkJF "EasyPlug" "Wintop" "0097" ["6943:4501"] "Wall Plug" [[mkJC "00" "1" false false true; mkJC "20" "1" false false true; mkJC "25" "1" true false true; mkJC "27" "1" true false true; mkJC "31" "1" true false true; mkJC "32" "2" true false true; mkJC "70" "1" true false true; mkJC "72" "1" true false true; mkJC "73" "1" true false true; mkJC "75" "1" true false true; mkJC "85" "1" true false true; mkJC "86" "1" true false true]].
Definition file518 := mkJF "iShutter" "Wintop" "0097" ["0024:0045"] "Wintop iShutter" [[]; [mkJC "27" "1" false false false]; [mkJC "27" "1" false false false]].
Definition file519 := mkJF "ITEMP" "Wintop" "0097" ["1182:4501"; "1188:4501"] "Contact and temperature sensor" [[mkJC "00" "1" false false true; mkJC "20" "1" false false true; mkJC "30" "1" true false true; mkJC "31" "1" true false true; mkJC "70" "1" true false true; mkJC "71" "1" true false true; mkJC "72" "1" true false true; mkJC "80" "1" true false true; mkJC "84" "1" true false true; mkJC "85" "1" true false true; mkJC "86" "1" true false true]].
Definition file520 := mkJF "LE120" "Wintop" "0097" ["6941:5501"] "Appliance Module" [[mkJC "00" "1" false false true; mkJC "20" "1" false false true; mkJC "25" "1" true false true; mkJC "27" "1" true false true; mkJC "72" "1" true false true]].
Definition file521 := mkJF "Multisensor" "Wintop" "0097" ["1180:5501"] "Wintop Multi-sensor" [[mkJC "00" "1" false false true; mkJC "20" "1" false false true; mkJC "30" "1" true false true; mkJC "31" "1" true false true; mkJC "60" "2" true false true; mkJC "70" "1" true false true; mkJC "71" "1" true false true; mkJC "72" "1" true false true; mkJC "80" "1" true false true; mkJC "84" "1" true false true; mkJC "85" "1" true false true; mkJC "86" "1" true false true]; [mkJC "20" "0" false false true; mkJC "31" "1" false false true]; [mkJC "20" "0" false false true; mkJC "31" "1" false false true]].
Definition file522 := mkJF "WTRFID" "Wintop" "0097" ["6131:4501"] "Mini Keypad RFID/Z-Wave" [[mkJC "00" "1" false false true; mkJC "20" "1" false false true; mkJC "25" "1" true false true; mkJC "63" "1" true false true; mkJC "70" "1" true false true; mkJC "71" "2" true false true; mkJC "72" "1" true false true; mkJC "76" "1" false false true; mkJC "80" "1" true false true; mkJC "84" "1" true false true; mkJC "85" "1" true false true; mkJC "86" "1" true false true]].
Definition file523 := mkJF "YKFCON" "ASSA ABLOY" "0129" ["0006:0000"] "Smart Living Keyfree Smart Lock" [[mkJC "00" "1" false false true; mkJC "20" "1" false false true; mkJC "4C" "1" true true false; mkJC "4E" "3" true true false; mkJC "62" "1" false true false; mkJC "63" "1" false true false; mkJC "70" "1" false true false; mkJC "71" "1" false true false; mkJC "72" "1" true false true; mkJC "75" "2" false true false; mkJC "76" "1" false true false; mkJC "80" "1" false true false; mkJC "85" "1" false true false; mkJC "86" "1" true false true; mkJC "8A" "2" false true false; mkJC "8B" "1" false true false; mkJC "98" "1" true true true]].
Definition file524 := mkJF "YRD110" "Yale Locks" "0129" ["0004:0800"] "Yale button deadbolt without keyway" [[mkJC "00" "1" false false true; mkJC "20" "1" false false true; mkJC "72" "1" false false true; mkJC "86" "1" false false true]].
Definition file525 := mkJF "YRD120" "ASSA ABLOY" "0129" ["0002:0800"] "Touchscreen deadbolt without key" [[mkJC "00" "1" false false true; mkJC "20" "1" false true false; mkJC "4C" "1" false true false; mkJC "4E" "1" false true false; mkJC "62" "1" false true false; mkJC "63" "1" false true false; mkJC "70" "1" false true true; mkJC "71" "1" false true true; mkJC "72" "1" true true true; mkJC "75" "1" false true true; mkJC "80" "1" false false true; mkJC "86" "1" false false true; mkJC "8A" "1" false true false; mkJC "8B" "1" false true false; mkJC "98" "1" true true true]].
Definition file526 := mkJF "YRD210" "ASSA ABLOY" "0129" ["0004:0000"; "0004:AA00"] "Push Button Deadbolt" [[mkJC "00" "1" false false true; mkJC "20" "1" false false true; mkJC "62" "1" false false true; mkJC "63" "1" false false true; mkJC "70" "1" false false true; mkJC "71" "1" false false true; mkJC "72" "1" false false true; mkJC "75" "1" false false true; mkJC "76" "1" false false true; mkJC "80" "1" false false true; mkJC "85" "1" false false true; mkJC "86" "1" false false true; mkJC "98" "1" false false true]].
Definition file527 := mkJF "YRD220" "ASSA ABLOY" "0129" ["0002:0000"; "0002:0209"; "0002:AA00"; "0002:FFFF"] "Yale Real Living Touchscreen Deadbolt" [[mkJC "00" "1" false true true; mkJC "20" "1" false false true; mkJC "4C" "0" false true false; mkJC "4E" "0" false true false; mkJC "62" "1" false true true; mkJC "63" "1" false true true; mkJC "70" "1" false true true; mkJC "71" "1" false true true; mkJC "72" "1" true true true; mkJC "75" "1" false true true; mkJC "76" "1" false false true; mkJC "80" "1" false true true; mkJC "85" "1" false true true; mkJC "86" "1" true true true; mkJC "8A" "0" false true false; mkJC "8B" "0" false true false; mkJC "98" "1" true false true]].
Definition file528 := mkJF "YRL220" "ASSA ABLOY" "0129" ["0001:0409"; "842A:3CAC"] "Yale Real Living Touchscreen Lever Lock" [[mkJC "00" "1" false true true; mkJC "20" "1" false false true; mkJC "4C" "0" false true false; mkJC "4E" "0" false true false; mkJC "62" "1" false true true; mkJC "63" "1" false true true; mkJC "70" "1" false true true; mkJC "71" "0" false true true; mkJC "72" "1" true true true; mkJC "75" "1" false true true; mkJC "76" "1" false false true; mkJC "80" "1" false true true; mkJC "85" "1" false true true; mkJC "86" "1" true true true; mkJC "8A" "0" false true false; mkJC "8B" "0" false true false; mkJC "98" "1" true false true]].
Definition file529 := mkJF "RGBWE27ZW" "Zipato" "0131" ["0002:0002"] "RGBW bulb" [[mkJC "00" "1" false false true; mkJC "20" "1" false false true; mkJC "26" "2" true false true; mkJC "33" "1" true false true; mkJC "59" "0" true false true; mkJC "5A" "0" true false true; mkJC "5E" "0" true false true; mkJC "70" "1" true false true; mkJC "72" "1" true false true; mkJC "73" "0" true false true; mkJC "7A" "0" true false true; mkJC "85" "1" true false true; mkJC "86" "1" true false true]].
Definition file530 := mkJF "ZEN06" "Zooz" "027A" ["0101:000A"] "Smart Plug with 2 USB ports" [[mkJC "00" "1" false false true; mkJC "20" "1" false false true; mkJC "25" "1" false false true; mkJC "27" "1" false false true; mkJC "2B" "1" false false true; mkJC "32" "3" false false true; mkJC "70" "1" false false true; mkJC "72" "1" false false true; mkJC "85" "1" false false true; mkJC "86" "1" false false true]].
Definition file531 := mkJF "ZEN07" "Zooz" "027A" ["0003:0087"] "Zooz Z-Wave Plus Mini Plug On / Off Module ZEN07" [[mkJC "00" "1" false false true; mkJC "20" "1" true false true; mkJC "25" "1" true false true; mkJC "27" "1" true false true; mkJC "32" "3" true false true; mkJC "59" "1" true false true; mkJC "5A" "1" true false true; mkJC "5E" "1" true false true; mkJC "70" "1" true false true; mkJC "71" "4" true false true; mkJC "72" "1" true false true; mkJC "73" "1" true false true; mkJC "85" "2" true false true; mkJC "86" "2" true false true]].
Definition file532 := mkJF "ZSE08" "Zooz" "027A" ["0003:0082"] "Zooz Z-Wave Plus Contact Sensor" [[mkJC "00" "1" false false true; mkJC "20" "1" false false true; mkJC "30" "2" true false true; mkJC "59" "1" true false true; mkJC "5A" "1" true false true; mkJC "5E" "1" true false true; mkJC "70" "1" true false true; mkJC "71" "4" true false true; mkJC "72" "1" true false true; mkJC "73" "1" true false true; mkJC "80" "1" true false true; mkJC "84" "2" true false true; mkJC "85" "2" true false true; mkJC "86" "2" true false true]].
Definition file533 := mkJF "ZSE09" "Zooz" "027A" ["0083:0003"] "Zooz Z-Wave Motion and Light Mini Sensor" [[mkJC "20" "0" false false true; mkJC "30" "2" false false true; mkJC "31" "7" false false true; mkJC "59" "0" false false true; mkJC "5A" "0" false false true; mkJC "5E" "2" false false true; mkJC "70" "0" false false true; mkJC "72" "2" false false true; mkJC "73" "0" false false true; mkJC "80" "0" false false true; mkJC "84" "2" false false true; mkJC "85" "2" false false true; mkJC "86" "2" false false true]].
Definition file534 := mkJF "ZSE30" "Zooz" "027A" ["0003:0000"; "0003:0085"] "Water Sensor" [[mkJC "00" "1" false false true; mkJC "20" "1" false false true; mkJC "30" "2" true false true; mkJC "59" "1" true false true; mkJC "5A" "1" true false true; mkJC "5E" "1" true false true; mkJC "70" "1" true false true; mkJC "71" "8" true false true; mkJC "72" "1" true false true; mkJC "73" "1" true false true; mkJC "80" "1" true false true; mkJC "84" "2" true false true; mkJC "85" "2" true false true; mkJC "86" "2" true false true]].
Definition file535 := mkJF "ZSE40" "Zooz" "027A" ["2021:2101"] "4-in-1 Sensor" [[mkJC "00" "1" false false true; mkJC "20" "1" false false true; mkJC "30" "0" false false true; mkJC "31" "7" true false true; mkJC "59" "1" true false true; mkJC "5A" "1" true false true; mkJC "5E" "1" true false true; mkJC "70" "1" true false true; mkJC "71" "4" true false true; mkJC "72" "1" true false true; mkJC "73" "1" true false true; mkJC "7A" "1" true false true; mkJC "80" "1" true false true; mkJC "84" "2" true false true; mkJC "85" "2" true false true; mkJC "86" "2" true false true]].
Definition file536 := mkJF "06436" "Z-Wave.Me" "0115" ["1000:0003"] "Insert blind control" [[mkJC "00" "1" false false true; mkJC "20" "1" false false true; mkJC "25" "1" true false true; mkJC "26" "1" true false true; mkJC "27" "1" true false true; mkJC "70" "1" true false true; mkJC "72" "1" true false true; mkJC "75" "1" true false true; mkJC "82" "1" true false true; mkJC "85" "1" true false true; mkJC "86" "1" true false true; mkJC "87" "1" true false true]].
Definition file537 := mkJF "KFOB" "Z-Wave.Me" "0115" ["0100:0001"; "0100:0002"] "4 button keyfob" [[mkJC "00" "1" false false true; mkJC "20" "1" false false true; mkJC "5B" "1" false false true; mkJC "70" "1" false false true; mkJC "72" "1" false false true; mkJC "80" "1" false false true; mkJC "84" "2" false false true; mkJC "85" "1" false false true; mkJC "86" "1" false false true; mkJC "8F" "1" false false true]].
Definition file538 := mkJF "KFOB-C" "Z-Wave.Me" "0115" ["0000:0000"] "Keyfob" [[mkJC "00" "1" false false true; mkJC "20" "1" false false true; mkJC "5B" "1" false false true; mkJC "70" "1" false false true; mkJC "72" "1" false false true; mkJC "80" "1" false false true; mkJC "84" "2" false false true; mkJC "85" "1" false false true; mkJC "86" "1" false false true; mkJC "8F" "1" false false true]].
Definition file539 := mkJF "WALLC-S" "Z-Wave.Me" "0115" ["0100:0101"] "Wall Controller" [[mkJC "00" "1" false false true; mkJC "20" "1" false false true; mkJC "26" "0" false false true; mkJC "2B" "0" false false true; mkJC "2D" "0" false false true; mkJC "5B" "0" false false true; mkJC "70" "1" false false true; mkJC "72" "1" false false true; mkJC "80" "1" false false true; mkJC "84" "2" false false true; mkJC "85" "1" false false true; mkJC "86" "1" false false true; mkJC "8F" "1" false false true]].
Definition file540 := mkJF "WCD2" "Z-Wave.Me" "0115" ["0100:0004"] "Double Paddle Wall Controller" [[mkJC "00" "1" false false true; mkJC "20" "1" false false true; mkJC "2B" "0" false false true; mkJC "70" "1" false false true; mkJC "72" "1" false false true; mkJC "80" "1" false false true; mkJC "84" "2" false false true; mkJC "85" "1" false false true; mkJC "86" "1" false false true]].
Definition file541 := mkJF "ZME_05431" "Z-Wave.Me" "0115" ["1000:0001"] "Flush mountable switch" [[mkJC "00" "1" false false true; mkJC "20" "1" true false true; mkJC "25" "1" true false true; mkJC "27" "0" true false true; mkJC "2B" "1" true false true; mkJC "2C" "0" true false true; mkJC "2D" "0" true false true; mkJC "70" "1" true false true; mkJC "72" "1" true false true; mkJC "75" "0" true false true; mkJC "77" "0" true false true; mkJC "85" "1" true false true; mkJC "86" "1" true false true; mkJC "87" "0" true false true; mkJC "8E" "0" true false true]].
Definition file542 := mkJF "ZME_05433" "Z-Wave.Me" "0115" ["1000:0002"; "1000:0009"] "Zwave.Me Dimmer Set Everlux" [[mkJC "00" "1" false false true; mkJC "20" "1" true false true; mkJC "26" "2" true false true; mkJC "27" "1" true false true; mkJC "2B" "1" true false true; mkJC "2C" "0" true false true; mkJC "2D" "0" true false true; mkJC "70" "1" true false true; mkJC "72" "1" true false true; mkJC "75" "1" true false true; mkJC "77" "1" true false true; mkJC "85" "1" true false true; mkJC "86" "1" true false true; mkJC "87" "1" true false true; mkJC "8E" "0" true false true]].
Definition file543 := mkJF "ZME_05459" "Z-Wave.Me" "0115" ["1000:0003"] "Blinds controller" [[mkJC "00" "1" false false true; mkJC "20" "1" false false true; mkJC "25" "1" false false true; mkJC "26" "3" false false true; mkJC "27" "1" false false true; mkJC "2B" "1" false false true; mkJC "60" "0" false false true; mkJC "70" "1" false false true; mkJC "72" "1" false false true; mkJC "77" "1" false false true; mkJC "85" "1" false false true; mkJC "86" "1" false false true; mkJC "87" "1" false false true]].
Definition file544 := mkJF "ZME_05461" "Z-Wave.Me" "0115" ["1000:0100"] "Double switch" [[mkJC "00" "1" false false true; mkJC "20" "1" true false true; mkJC "25" "1" true false true; mkJC "27" "1" true false true; mkJC "32" "3" true false true; mkJC "60" "2" true false true; mkJC "70" "1" true false true; mkJC "72" "1" true false true; mkJC "75" "1" true false true; mkJC "85" "2" true false true; mkJC "86" "1" true false true; mkJC "8E" "2" true false true]; [mkJC "20" "0" false false true; mkJC "25" "1" false false true; mkJC "32" "3" false false true]; [mkJC "20" "0" false false true; mkJC "25" "1" false false true; mkJC "32" "3" false false true]].
Definition file545 := mkJF "ZME_06437" "Z-Wave.Me" "0115" ["1000:0200"] "Wall Plug Switch" [[mkJC "00" "1" false false true; mkJC "20" "1" true false true; mkJC "25" "1" true false true; mkJC "27" "1" true false true; mkJC "32" "3" true false true; mkJC "59" "1" true false true; mkJC "5A" "1" true false true; mkJC "5E" "1" true false true; mkJC "70" "1" true false true; mkJC "72" "1" true false true; mkJC "73" "0" false false true; mkJC "75" "1" true false true; mkJC "85" "1" true false true; mkJC "86" "1" true false true; mkJC "87" "1" true false true; mkJC "8E" "1" true false true]].
Definition file546 := mkJF "ZME_06443" "Z-Wave.Me" "0115" ["0400:0004"; "1000:0004"] "Single Paddle Wall Controller" [[mkJC "00" "1" false false true; mkJC "20" "1" false false true; mkJC "2B" "0" false false true; mkJC "70" "1" true false true; mkJC "72" "1" true false true; mkJC "75" "1" true false true; mkJC "77" "0" true false true; mkJC "80" "1" true false true; mkJC "84" "2" true false true; mkJC "85" "1" true false true; mkJC "86" "1" true false true; mkJC "8E" "0" true false true]].
Definition file547 := mkJF "ZME_FT" "Z-Wave.Me" "0115" ["0024:0001"] "Floor Thermostat" [[mkJC "00" "1" false false true; mkJC "20" "1" true false true; mkJC "31" "4" true false true; mkJC "40" "1" true false true; mkJC "43" "1" true false true; mkJC "70" "1" true false true; mkJC "72" "1" true false true; mkJC "75" "1" true false true; mkJC "77" "1" true false true; mkJC "85" "2" true false true; mkJC "86" "1" true false true]].
Definition file548 := mkJF "ZME_KFOB-S" "Z-Wave.Me" "0115" ["0100:0101"; "0100:0102"; "0100:0103"] "Secure 4 Button Key Chain Controller" [[mkJC "00" "1" false false true; mkJC "20" "0" false false true; mkJC "2D" "1" false false true; mkJC "59" "1" false false true; mkJC "5A" "1" false false true; mkJC "5B" "1" false false true; mkJC "5E" "1" false false true; mkJC "70" "1" false false true; mkJC "72" "1" false false true; mkJC "73" "1" false false true; mkJC "80" "1" false false true; mkJC "84" "2" false false true; mkJC "85" "2" false false true; mkJC "86" "2" false false true; mkJC "8F" "1" false false true]].
Definition file549 := mkJF "ZME_RC2" "Z-Wave.Me" "0115" ["1000:0300"] "Z-Wave Remote Control+" [[mkJC "00" "1" false false true; mkJC "20" "1" false false true; mkJC "26" "1" true false true; mkJC "2B" "1" true false true; mkJC "70" "1" true false true; mkJC "72" "1" true false true; mkJC "80" "1" true false true; mkJC "84" "2" true false true; mkJC "85" "1" true false true; mkJC "86" "1" true false true; mkJC "8E" "2" true false true]].
Definition file550 := mkJF "ZUNO1S1D1AI1DI" "Z-Wave.Me" "0115" ["0110:0001"] "ZUNO1S1D1AI1DI" [[mkJC "00" "1" false false true; mkJC "20" "1" false false true; mkJC "25" "1" false false true; mkJC "59" "1" false false true; mkJC "5A" "1" false false true; mkJC "5E" "1" false false true; mkJC "60" "2" false false true; mkJC "70" "1" false false true; mkJC "72" "1" false false true; mkJC "73" "1" false false true; mkJC "7A" "1" false false true; mkJC "85" "2" false false true; mkJC "86" "2" false false true; mkJC "8E" "3" false false true]; [mkJC "20" "0" false false true; mkJC "25" "1" false false true]; [mkJC "20" "0" false false true; mkJC "26" "0" false false true]; [mkJC "20" "0" false false true; mkJC "31" "0" false false true]; [mkJC "20" "0" false false true; mkJC "30" "0" false false true]].
Definition file551 := mkJF "Z-Weather" "Z-Wave.Me" "0115" ["0100:0400"] "Z-Wave weather interface" [[mkJC "00" "1" false false true; mkJC "20" "1" false false true; mkJC "30" "0" false false true; mkJC "31" "6" true false true; mkJC "32" "3" true false true; mkJC "59" "1" true false true; mkJC "5A" "1" true false true; mkJC "5E" "1" true false true; mkJC "70" "1" true false true; mkJC "72" "1" true false true; mkJC "73" "1" true false true; mkJC "80" "1" true false true; mkJC "84" "2" true false true; mkJC "85" "1" true false true; mkJC "86" "1" true false true; mkJC "89" "1" true false true; mkJC "8E" "0" true false true; mkJC "8F" "1" true false true; mkJC "9B" "0" true false true]].
Definition file552 := mkJF "ST812" "ZyXEL" "0135" ["000B:0001"] "Flood sensor" [[mkJC "00" "1" false false true; mkJC "20" "1" true false true; mkJC "70" "1" true false true; mkJC "72" "1" true false true; mkJC "80" "1" true false true; mkJC "84" "2" true false true; mkJC "85" "1" true false true; mkJC "86" "1" true false true; mkJC "9C" "1" true false true]].
Definition files : list jfile := [file0; file1; file2; file3; file4; file5; file6; file7; file8; file9; file10; file11; file12; file13; file14; file15; file16; file17; file18; file19; file20; file21; file22; file23; file24; file25; file26; file27; file28; file29; file30; file31; file32; file33; file34; file35; file36; file37; file38; file39; file40; file41; file42; file43; file44; file45; file46; file47; file48; file49; file50; file51; file52; file53; file54; file55; file56; file57; file58; file59; file60; file61; file62; file63; file64; file65; file66; file67; file68; file69; file70; file71; file72; file73; file74; file75; file76; file77; file78; file79; file80; file81; file82; file83; file84; file85; file86; file87; file88; file89; file90; file91; file92; file93; file94; file95; file96; file97; file98; file99; file100; file101; file102; file103; file104; file105; file106; file107; file108; file109; file110; file111; file112; file113; file114; file115; file116; file117; file118; file119; file120; file121; file122; file123; file124; file125; file126; file127; file128; file129; file130; file131; file132; file133; file134; file135; file136; file137; file138; file139; file140; file141; file142; file143; file144; file145; file146; file147; file148; file149; file150; file151; file152; file153; file154; file155; file156; file157; file158; file159; file160; file161; file162; file163; file164; file165; file166; file167; file168; file169; file170; file171; file172; file173; file174; file175; file176; file177; file178; file179; file180; file181; file182; file183; file184; file185; file186; file187; file188; file189; file190; file191; file192; file193; file194; file195; file196; file197; file198; file199; file200; file201; file202; file203; file204; file205; file206; file207; file208; file209; file210; file211; file212; file213; file214; file215; file216; file217; file218; file219; file220; file221; file222; file223; file224; file225; file226; file227; file228; file229; file230; file231; file232; file233; file234; file235; file236; file237; file238; file239; file240; file241; file242; file243; file244; file245; file246; file247; file248; file249; file250; file251; file252; file253; file254; file255; file256; file257; file258; file259; file260; file261; file262; file263; file264; file265; file266; file267; file268; file269; file270; file271; file272; file273; file274; file275; file276; file277; file278; file279; file280; file281; file282; file283; file284; file285; file286; file287; file288; file289; file290; file291; file292; file293; file294; file295; file296; file297; file298; file299; file300; file301; file302; file303; file304; file305; file306; file307; file308; file309; file310; file311; file312; file313; file314; file315; file316; file317; file318; file319; file320; file321; file322; file323; file324; file325; file326; file327; file328; file329; file330; file331; file332; file333; file334; file335; file336; file337; file338; file339; file340; file341; file342; file343; file344; file345; file346; file347; file348; file349; file350; file351; file352; file353; file354; file355; file356; file357; file358; file359; file360; file361; file362; file363; file364; file365; file366; file367; file368; file369; file370; file371; file372; file373; file374; file375; file376; file377; file378; file379; file380; file381; file382; file383; file384; file385; file386; file387; file388; file389; file390; file391; file392; file393; file394; file395; file396; file397; file398; file399; file400; file401; file402; file403; file404; file405; file406; file407; file408; file409; file410; file411; file412; file413; file414; file415; file416; file417; file418; file419; file420; file421; file422; file423; file424; file425; file426; file427; file428; file429; file430; file431; file432; file433; file434; file435; file436; file437; file438; file439; file440; file441; file442; file443; file444; file445; file446; file447; file448; file449; file450; file451; file452; file453; file454; file455; file456; file457; file458; file459; file460; file461; file462; file463; file464; file465; file466; file467; file468; file469; file470; file471; file472; file473; file474; file475; file476; file477; file478; file479; file480; file481; file482; file483; file484; file485; file486; file487; file488; file489; file490; file491; file492; file493; file494; file495; file496; file497; file498; file499; file500; file501; file502; file503; file504; file505; file506; file507; file508; file509; file510; file511; file512; file513; file514; file515; file516; file517; file518; file519; file520; file521; file522; file523; file524; file525; file526; file527; file528; file529; file530; file531; file532; file533; file534; file535; file536; file537; file538; file539; file540; file541; file542; file543; file544; file545; file546; file547; file548; file549; file550; file551; file552].
