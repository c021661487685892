(** Generated by tools/gen_parameters.py: the parameters in the files of
    /repo/database/json, in the order of the directory, and those of the devices in
    /repo/database/devices.go, in the order of the cases. *)
From Verif Require Import ModelBase.
(** generators/database/database.go:95-113 [parameter], [option]; fields that the template does not
    write are left out, except the default *)
Record jparam : Type := mkJP {
  jp_id : Z; jp_label : string; jp_size : Z; jp_default : Z; jp_min : Z; jp_max : Z;
  jp_options : list (Z * string) }.
(** devices.go:3-8 [Value] *)
Record gvalue : Type := mkGV { gv_from : Z; gv_to : Z; gv_desc : string; gv_unit : string }.
(** devices.go:9-18 [parameter] *)
Record gparam : Type := mkGP {
  gp_id : Z; gp_name : string; gp_type : string; gp_description : string; gp_size : Z; gp_default : string;
  gp_values : list gvalue }.
Local Open Scope string_scope.
Local Open Scope Z_scope.
(** Composite literals with the fields that occur in devices.go. *)
Local Definition V (from to : Z) (desc : string) := mkGV from to desc "".
Local Definition P (id : Z) (name : string) (size : Z) (values : list gvalue) := mkGP id name "" "" size "" values.
Definition fpar0 : list jparam := [mkJP 1 "Device Configuration Value 1" 1 141 0 143 []].
Definition fpar1 : list jparam := [].
Definition fpar2 : list jparam := [].
Definition fpar3 : list jparam := [mkJP 5 "Ignore Start Level When Receiving Dim Commands" 1 1 0 1 [(0, "Respect Start Level"); (1, "Ignore Start Level (default)")]; mkJP 7 "Dim Rate Step Count - ZWave Control" 1 1 1 99 []; mkJP 8 "Dim Rate Step Duration - ZWave Control" 1 3 1 255 []; mkJP 9 "Dim Rate Step Count - Manual Control" 1 1 1 99 []; mkJP 10 "Dim Rate Step Duration - manual Control" 1 3 1 255 []; mkJP 11 "Dim Rate Step Count - ZWave All on/off" 1 1 1 99 []; mkJP 12 "Dim Rate Step Duration - ZWave All on/off" 1 3 1 255 []; mkJP 29 "Load Sensing" 1 0 0 1 [(0, "Disabled (default)"); (1, "Enabled")]].
Definition fpar4 : list jparam := [mkJP 1 "Ignore Start-Level (Transmitting)" 1 1 0 1 [(0, "No"); (1, "Yes")]; mkJP 2 "Suspend group 4" 1 0 0 1 [(0, "No"); (1, "Yes")]; mkJP 3 "Night Light" 1 0 0 1 [(0, "No"); (1, "Yes")]].
Definition fpar5 : list jparam := [].
Definition fpar6 : list jparam := [mkJP 1 "Set Ignore Start Level Bit When Transmitting Dim Commands" 1 1 0 255 [(0, "Use transmisison start level"); (1, "Ignore transmisison start level")]; mkJP 2 "Suspend Group 4" 1 0 0 255 [(0, "Enable transmission to Group 4"); (1, "Disable transmission to Group 4")]; mkJP 3 "Night Light" 1 0 0 255 [(0, "LED on when switch is ON"); (1, "LED on when switch is OFF")]; mkJP 4 "Invert Switch" 1 0 0 255 [(0, "No"); (1, "Yes")]; mkJP 5 "Ignore Start-Level (Receiving)" 1 0 0 255 [(0, "No"); (1, "Yes")]; mkJP 6 "Don’t Send Level Command After Transmitting Dim Commands" 1 1 0 255 [(0, "Send level command"); (1, "Don’t send level command")]; mkJP 7 "On/Off Command Dim Step" 1 1 1 99 []; mkJP 8 "On/Off Command Dim Rate" 1 3 1 255 []; mkJP 9 "Local Control Dim Step" 1 1 1 99 []; mkJP 10 "Local Control Dim Rate" 1 3 1 255 []; mkJP 11 "ALL ON/ALL OFF Dim Step" 1 1 1 99 []; mkJP 12 "ALL ON/ALL OFF Dim Rate" 1 3 1 255 []; mkJP 13 "Disable Group 4 During a Dim Command" 1 0 0 255 [(0, "Enable transmission to Group 4"); (1, "Disable transmission to Group 4")]; mkJP 14 "Enable Shade Control Group 2" 1 0 0 255 [(0, "Disabled"); (1, "Enabled")]; mkJP 15 "Enable Shade Control Group 3" 1 0 0 255 [(0, "Disabled"); (1, "Enabled")]; mkJP 19 "LED Transmission Indication" 1 2 0 255 [(0, "No flicker"); (1, "Flicker during all transmission"); (2, "Flicker first second of transmission")]].
Definition fpar7 : list jparam := [mkJP 1 "Set Ignore Start Level Bit When Transmitting Dim Commands" 1 1 0 255 [(0, "Use transmisison start level"); (1, "Ignore transmisison start level")]; mkJP 2 "Suspend Group 4" 1 0 0 255 [(0, "Enable transmission to Group 4"); (1, "Disable transmission to Group 4")]; mkJP 3 "Night Light" 1 0 0 255 [(0, "LED on when switch is OFF"); (1, "LED on when switch is ON")]; mkJP 4 "Invert Switch" 1 0 0 255 [(0, "No"); (1, "Yes")]; mkJP 5 "Ignore Start-Level (Receiving)" 1 0 0 255 [(0, "No"); (1, "Yes")]; mkJP 6 "Don’t Send Level Command After Transmitting Dim Commands" 1 1 0 255 [(0, "Send level command"); (1, "Don’t send level command")]; mkJP 7 "On/Off Command Dim Step" 1 1 1 99 []; mkJP 8 "On/Off Command Dim Rate" 1 3 1 255 []; mkJP 9 "Local Control Dim Step" 1 1 1 99 []; mkJP 10 "Local Control Dim Rate" 1 3 1 255 []; mkJP 11 "ALL ON/ALL OFF Dim Step" 1 1 1 99 []; mkJP 12 "ALL ON/ALL OFF Dim Rate" 1 3 1 255 []; mkJP 13 "Disable Group 4 During a Dim Command" 1 0 0 255 [(0, "Enable transmission to Group 4"); (1, "Disable transmission to Group 4")]; mkJP 19 "LED Transmission Indication" 1 2 0 255 [(0, "No flicker"); (1, "Flicker during all transmission"); (2, "Flicker first second of transmission")]].
Definition fpar8 : list jparam := [mkJP 17 "Mode" 1 0 0 2 [(0, "Lightning"); (1, "Alarm"); (2, "Sensor")]; mkJP 18 "Off/Idle delay" 1 1 0 255 []; mkJP 19 "Unsolicited Commands" 1 1 0 255 [(0, "disabled"); (1, "enabled")]; mkJP 22 "Awake Time" 1 30 15 45 []].
Definition fpar9 : list jparam := [mkJP 1 "Ignore start level" 1 1 0 1 [(0, "Ignore start level"); (1, "Do not ignore start level")]; mkJP 2 "Suspend Group 4" 1 0 0 1 [(0, "Transmit to group 4 devices"); (1, "Stop transmit to group 4 devices")]; mkJP 3 "Night Light" 1 0 0 1 [(0, "Led when load on"); (1, "Led when load off")]; mkJP 4 "Invert Switch" 1 0 0 1 [(0, "Invert off"); (1, "Invert on")]; mkJP 14 "Enable Shade Control Group 2" 1 0 0 1 []; mkJP 15 "Enable Shade Control Group 3" 1 0 0 1 []; mkJP 19 "LED Transmission Indication" 1 2 0 2 [(0, "No flicker"); (1, "Flicker for 1 second"); (2, "Flicker for 2 second")]; mkJP 20 "Poll Group 2 Interval" 1 2 0 255 []; mkJP 22 "Poll Group 2" 1 1 0 1 []].
Definition fpar10 : list jparam := [].
Definition fpar11 : list jparam := [mkJP 1 "Set Ignore Start Level Bit" 1 1 0 1 [(0, "Dimmer will not ignore the start level"); (1, "Dimmer will ignore the start level")]; mkJP 2 "Suspend Group 4" 1 0 0 1 [(0, "Enable transmitting to devices “associated” into Group 4"); (1, "Stop transmitting to devices “associated” into Group 4")]; mkJP 3 "Night Light" 1 0 0 1 [(0, "Turn LED ON when the load is turned ON"); (1, "Turn LED ON when the load is turned OFF")]; mkJP 4 "Invert Switch" 1 0 0 1 [(0, "Top of switch is ON, bottom is OFF"); (1, "Top of switch is OFF, bottom is ON")]; mkJP 14 "Enable Shade Control Group 2" 1 0 0 1 [(0, "Disable operation of shade control devices via group 2"); (1, "Enable operation of shade control devices via group 2")]; mkJP 15 "Enable Shade Control Group 3" 1 0 0 1 [(0, "Disable operation of shade control devices via group 3"); (1, "Enable operation of shade control devices via group 3")]; mkJP 19 "LED Transmission Indication" 1 2 0 2 [(0, "LED will not flicker"); (1, "LED will flicker the entire time while transmitting"); (2, "LED will flicker 1 second when it begins transmitting")]].
Definition fpar12 : list jparam := [mkJP 1 "Ignore Start Level Bit" 1 1 0 1 [(0, "Do not ignore start level"); (1, "Ignore start level")]; mkJP 2 "Suspend Group 4" 1 0 0 1 []; mkJP 3 "Night Light" 1 0 0 1 []; mkJP 4 "Invert Switch" 1 0 0 1 []; mkJP 5 "Ignore Start Level Bit" 1 1 0 1 []; mkJP 7 "On/Off Command dim step" 1 3 1 99 []; mkJP 8 "On/Off Command dim timer" 1 10 1 255 []; mkJP 9 "Local Control dim rate" 1 3 1 99 []; mkJP 10 "Dim timer Parameter" 1 10 1 255 []; mkJP 11 "ALL ON/ALL OFF dim step" 1 3 1 99 []; mkJP 12 "ALL ON/ALL OFF dim rate" 1 10 1 255 []; mkJP 13 "Disable group 4 during dim command" 1 0 0 1 []; mkJP 14 "Enable shade control group 2" 1 0 0 1 []; mkJP 15 "Enable shade control group 3" 1 0 0 1 []; mkJP 16 "Enable shade control group 1" 1 0 0 1 []; mkJP 19 "Transmission LED" 1 2 0 2 []; mkJP 20 "Poll group 1 interval" 1 2 1 255 []; mkJP 21 "Poll group 1" 1 0 0 1 []; mkJP 22 "Poll Group 2" 1 1 0 1 []].
Definition fpar13 : list jparam := [mkJP 1 "Which value of the Sensor Binary Report or Basic Set will be sent when the Magnet is triggered On/Off." 1 0 0 0 [(0, "On=Sensor Binary Report/Basic Set 0xFF; Off=Sensor Binary Report/Basic"); (1, "On=Sensor Binary Report/Basic Set 0x00; Off=Sensor Binary Report/Basic")]; mkJP 2 "Enable wake up 10 minutes when re-power on the sensor" 1 1 0 1 [(0, "Disable"); (1, "Enable")]; mkJP 3 "Basic Set Report" 1 0 0 1 [(0, "Open: 0xFF, Close: 0x00"); (1, "Open: 0x00, Close: 0xFF")]; mkJP 39 "Set the low battery value." 1 10 10 50 []; mkJP 111 "Set the interval time of low battery checking." 4 86640 0 2147483647 []; mkJP 121 "Report type" 4 1 0 65535 []; mkJP 255 "Reset To Factory Defaults." 4 0 0 0 [(0, "Reset to factory default setting"); (1, "Normal"); (1431655765, "Reset to factory default")]].
Definition fpar14 : list jparam := [mkJP 241 "Mode of Button 1 (upper left)" 1 0 0 255 [(0, "Factory Default"); (1, "Scene Mode"); (2, "Add Mode"); (3, "Remove Mode"); (4, "Association Mode"); (5, "Learn Mode")]; mkJP 242 "Mode of Button 2 (upper right)" 1 0 0 255 [(0, "Factory Default"); (1, "Scene Mode"); (2, "Add Mode"); (3, "Remove Mode"); (4, "Association Mode"); (5, "Learn Mode")]; mkJP 243 "Mode of Button 3 (lower left)" 1 0 0 255 [(0, "Factory Default"); (1, "Scene Mode"); (2, "Add Mode"); (3, "Remove Mode"); (4, "Association Mode"); (5, "Learn Mode")]; mkJP 244 "Mode of Button 4 (lower right)" 1 0 0 255 [(0, "Factory Default"); (1, "Scene Mode"); (2, "Add Mode"); (3, "Remove Mode"); (4, "Association Mode"); (5, "Learn Mode")]; mkJP 245 "Mode of Button 5 (Include)" 1 0 0 255 [(0, "Factory Default"); (1, "Scene Mode"); (2, "Add Mode"); (3, "Remove Mode"); (4, "Association Mode"); (5, "Learn Mode")]; mkJP 246 "Mode of Button 6 (Exclude)" 1 0 0 255 [(0, "Factory Default"); (1, "Scene Mode"); (2, "Add Mode"); (3, "Remove Mode"); (4, "Association Mode"); (5, "Learn Mode")]; mkJP 247 "Mode of Button 7 (Association)" 1 0 0 255 [(0, "Factory Default"); (1, "Scene Mode"); (2, "Add Mode"); (3, "Remove Mode"); (4, "Association Mode"); (5, "Learn Mode")]; mkJP 248 "Mode of Button 8 (Learn)" 1 0 0 255 [(0, "Factory Default"); (1, "Scene Mode"); (2, "Add Mode"); (3, "Remove Mode"); (4, "Association Mode"); (5, "Learn Mode")]; mkJP 250 "Secondary Controller Mode" 1 0 0 255 [(0, "Group Mode"); (1, "Scene Mode")]].
Definition fpar15 : list jparam := [mkJP 250 "Mode of Button 1 " 1 0 0 255 [(0, "Factory Default"); (1, "Scene Mode")]].
Definition fpar16 : list jparam := [mkJP 2 "Wake up for 10 minutes when batteries are inserted" 1 0 0 255 [(0, "disable (default)"); (1, "enable")]; mkJP 3 "On time" 2 240 1 15300 []; mkJP 4 "Motion sensor" 1 1 0 255 [(0, "Disabled"); (1, "Enabled")]; mkJP 5 "Command to send when movement" 1 1 0 255 [(1, "Send Basic Set"); (2, "send Sensor Binary report")]; mkJP 101 "Which reports to send to group 1" 4 0 0 225 []; mkJP 102 "Which reports to send to group 2" 4 0 0 225 []; mkJP 103 "Which reports to send to group 3" 4 0 0 225 []; mkJP 111 "Interval to send out reports of group 1" 4 720 1 2678400 []; mkJP 112 "Interval to send out reports of group 2" 4 720 1 2678400 []; mkJP 113 "Interval to send out reports of group 3" 4 720 1 2678400 []; mkJP 255 "Reset to the default Configuration of all parameters" 1 0 0 255 []].
Definition fpar17 : list jparam := [mkJP 1 "Voltage" 2 240 0 32000 []; mkJP 3 "Selective Reporting" 1 0 0 1 []; mkJP 4 "Current Threshold - Whole HEM" 2 50 0 60000 []; mkJP 5 "Current Threshold - Clamp 1" 2 50 0 60000 []; mkJP 6 "Current Threshold - Clamp 2" 2 50 0 60000 []; mkJP 7 "Current Threshold - Clamp 3" 2 50 0 60000 []; mkJP 8 "Percent Change - Whole HEM" 1 50 0 100 []; mkJP 9 "Percent Change - Clamp 1" 1 50 0 100 []; mkJP 10 "Percent Change - Clamp 2" 1 50 0 100 []; mkJP 11 "Percent Change - Clamp 3" 1 50 0 100 []; mkJP 101 "Which reports need to send automatically for group 1" 4 8 0 65535 []; mkJP 102 "Which reports need to send automatically for group 2" 4 8 0 65535 []; mkJP 103 "Which reports need to send automatically for group 3" 4 8 0 65535 []; mkJP 111 "Interval to send out reports of group 1" 4 720 1 2678400 []; mkJP 112 "Interval to send out reports of group 2" 4 720 1 2678400 []; mkJP 113 "Interval to send out reports of group 3" 4 720 1 2678400 []].
Definition fpar18 : list jparam := [mkJP 2 "Reverse clamping" 1 0 0 255 [(0, "Disabled"); (1, "Enabled")]; mkJP 3 "Selective Reporting" 1 1 0 16 []; mkJP 4 "Current Threshold - Whole HEM" 2 50 0 60000 []; mkJP 5 "Current Threshold - Clamp 1" 2 50 0 60000 []; mkJP 6 "Current Threshold - Clamp 2" 2 50 0 60000 []; mkJP 7 "Current Threshold - Clamp 3" 2 50 0 60000 []; mkJP 8 "Percent Change - Whole HEM" 1 50 0 100 []; mkJP 9 "Percent Change - Clamp 1" 1 50 0 100 []; mkJP 10 "Percent Change - Clamp 2" 1 50 0 100 []; mkJP 11 "Percent Change - Clamp 3" 1 50 0 100 []; mkJP 101 "Which reports need to send automatically for group 1" 4 8 0 1061109568 []; mkJP 102 "Which reports need to send automatically for group 2" 4 8 0 1061109568 []; mkJP 103 "Which reports need to send automatically for group 3" 4 8 0 1061109568 []; mkJP 111 "Interval to send out reports of group 1" 4 720 1 2678400 []; mkJP 112 "Interval to send out reports of group 2" 4 720 1 2678400 []; mkJP 113 "Interval to send out reports of group 3" 4 720 1 2678400 []].
Definition fpar19 : list jparam := [mkJP 1 "Send Sensor binary report on open/close events" 1 0 0 255 [(0, "On for opened, Off for closed"); (1, "Off for opened, On for closed")]; mkJP 2 "Enable wake up 10 minutes when power on" 1 0 0 255 [(0, "No"); (1, "Yes")]; mkJP 3 "Send Basic Set on open/close event" 1 0 0 255 [(0, "On for opened, Off for closed"); (1, "Off for opened, On for closed")]; mkJP 121 "command class to use for open/close" 4 0 0 17 [(0, "not set"); (1, "BATTERY report"); (16, "SENSOR BINARY report"); (17, "SENSOR BINARY and BATTERY report")]; mkJP 121 "command class to use for open/close" 4 1 0 1 [(0, "not set"); (1, "BASIC report")]].
Definition fpar20 : list jparam := [mkJP 1 "Sensor Binary Report" 1 0 0 1 [(0, "Open: 00, Close: FF"); (1, "Open: FF, Close: 00")]; mkJP 2 "Wake up" 1 0 0 1 [(0, "Disable"); (1, "Enable")]; mkJP 3 "Basic set value" 1 0 0 1 [(0, "Open: 00, Close: FF"); (1, "Open: FF, Close: 00")]; mkJP 121 "Reports that will be sent" 4 0 1 17 [(0, "Do not send anything"); (1, "Send battery report"); (16, "Send Sensor Binary report"); (17, "Send Sensor Binary and Battery reports")]; mkJP 121 "Parameter 121 Value 3" 4 1 1 17 [(0, "Do not send anything"); (1, "Send Basic Set"); (16, "Send ALARM"); (17, "Send Basic Set and ALARM")]].
Definition fpar21 : list jparam := [mkJP 1 "Send Sensor binary report on open/close events" 1 0 0 255 [(0, "On for opened, Off for closed"); (1, "Off for opened, On for closed")]; mkJP 3 "Send Basic Set on open/close event" 1 0 0 255 [(0, "On for opened, Off for closed"); (1, "Off for opened, On for closed")]; mkJP 101 "Low battery voltage check" 1 0 0 255 [(0, "Disable"); (1, "Enable")]; mkJP 111 "Low battery voltage check time" 4 112 0 65535 []; mkJP 121 "Flag values for triggered magnet switch" 4 256 0 65535 []; mkJP 252 "Permit other configurations" 1 0 0 255 [(0, "Unlock"); (1, "Lock")]; mkJP 255 "Reset to default" 2 0 0 65535 [(0, "Reset")]].
Definition fpar22 : list jparam := [mkJP 1 "Multilevel Sensor Report Content" 1 0 0 1 [(0, "Power"); (1, "Voltage")]; mkJP 80 "Automatic Notifications" 1 0 0 2 [(0, "Nothing"); (1, "Hail"); (2, "Basic CC Report")]; mkJP 90 "Enable/disable Parameter 91 and 92" 1 0 0 1 [(0, "Disable"); (1, "Enable")]; mkJP 91 "Minimum change in wattage" 2 50 0 65535 []; mkJP 92 "Minimum change in wattage %" 1 10 0 100 []; mkJP 100 "Set 100 to 103 to default" 1 0 0 1 [(0, "Reset")]; mkJP 101 "Group 1 report" 4 8 0 65535 [(0, "None"); (2, "Multisensor Report"); (4, "Meter Report (Watts)"); (8, "Meter Report (kWh)"); (12, "Meter Report Watts and kWh")]; mkJP 102 "Group 2 report" 4 0 0 65535 [(0, "None"); (2, "Multisensor Report"); (4, "Meter Report (Watts)"); (8, "Meter Report (kWh)"); (12, "Meter Report Watts and kWh")]; mkJP 103 "Group 3 report" 4 0 0 65535 [(0, "None"); (2, "Multisensor Report"); (4, "Meter Report (Watts)"); (8, "Meter Report (kWh)"); (12, "Meter Report Watts and kWh")]; mkJP 110 "Set 111 to 113 to default" 1 0 0 1 [(0, "Reset")]; mkJP 111 "Interval Group 1" 4 600 0 65535 []; mkJP 112 "Interval Group 2" 4 600 0 65535 []; mkJP 113 "Interval Group 3" 4 600 0 65535 []; mkJP 254 "Device Tag" 2 0 0 65535 []; mkJP 255 "Device Reset" 1 0 0 1 [(0, "Reset")]].
Definition fpar23 : list jparam := [mkJP 1 "Multilevel Sensor Report Content" 1 0 0 255 [(0, "Power"); (1, "Voltage")]; mkJP 2 "Make SES blink" 2 0 0 65535 []; mkJP 80 "Automatic Notifications" 1 0 0 255 [(0, "Nothing"); (1, "Hail"); (2, "Basic CC Report")]; mkJP 90 "Enable Parameter 91" 1 0 0 255 [(0, "Disable"); (1, "Enable")]; mkJP 91 "Minimum change in wattage" 2 50 0 65535 []; mkJP 92 "Minimum change in wattage %" 1 10 0 255 []; mkJP 100 "Set 100 to 103 to default" 1 0 0 255 [(0, "Reset")]; mkJP 101 "Group 1 report" 4 8 0 65535 [(2, "Multisensor Report"); (4, "Meter Report (Watts)"); (8, "Meter Report (kWh)")]; mkJP 102 "Group 2 report" 4 0 0 65535 [(2, "Multisensor Report"); (4, "Meter Report (Watts)"); (8, "Meter Report (kWh)")]; mkJP 103 "Group 3 report" 4 0 0 65535 [(2, "Multisensor Report"); (4, "Meter Report (Watts)"); (8, "Meter Report (kWh)")]; mkJP 110 "Set 111 to 113 to default" 1 0 0 255 [(0, "Reset")]; mkJP 111 "Interval group 1" 4 600 0 65535 []; mkJP 112 "Interval group 1" 4 600 0 65535 []; mkJP 113 "Interval group 1" 4 600 0 65535 []; mkJP 254 "Device Tag" 2 0 0 65535 []; mkJP 255 "Device Reset" 1 0 0 255 [(0, "Reset")]].
Definition fpar24 : list jparam := [mkJP 3 "Current Overload Protection" 1 0 0 1 [(0, "Activate Overload Protection"); (1, "Deactivate Overload Protection")]; mkJP 20 "Output Load Status" 1 0 0 2 [(0, "Last Status"); (1, "Always ON"); (2, "Always OFF")]; mkJP 80 "Notification on Status Change" 1 0 0 2 [(0, "Nothing"); (1, "Hail"); (2, "Basic CC Report")]; mkJP 90 "Enables/disables parameter 91/92" 1 0 0 1 [(0, "Enable parameters 91 and 92"); (1, "Disable parameters 91 and 92")]; mkJP 91 "Minimum Change to send Report (Watt)" 2 50 0 32000 []; mkJP 92 "Minimum Change to send Report (%)" 1 10 0 100 []; mkJP 200 "Partner ID" 1 0 0 1 [(0, "Aeon Labs"); (1, "Other")]; mkJP 252 "Lock/unlock Configuration Changes" 1 0 0 1 [(0, "Unlocked"); (1, "Locked")]].
Definition fpar25 : list jparam := [mkJP 1 "Voltage to calculate power" 2 120 0 32000 []; mkJP 4 "Selective Reporting" 1 1 0 16 []; mkJP 5 "Wattage Threshold - Whole strip" 2 25 0 60000 []; mkJP 6 "Wattage Threshold - Socket 1" 2 25 0 60000 []; mkJP 7 "Wattage Threshold - Socket 2" 2 25 0 60000 []; mkJP 8 "Wattage Threshold - Socket 3" 2 25 0 60000 []; mkJP 9 "Wattage Threshold - Socket 4" 2 25 0 60000 []; mkJP 10 "Wattage Threshold - Socket 5" 2 25 0 60000 []; mkJP 11 "Wattage Threshold - Socket 6" 2 25 0 60000 []; mkJP 12 "Percent Change - Whole Strip" 1 5 0 100 []; mkJP 13 "Percent Change - Socket 1" 1 5 0 100 []; mkJP 14 "Percent Change - Socket 2" 1 5 0 100 []; mkJP 15 "Percent Change - Socket 3" 1 5 0 100 []; mkJP 16 "Percent Change - Socket 4" 1 5 0 100 []; mkJP 17 "Percent Change - Socket 5" 1 5 0 100 []; mkJP 18 "Percent Change - Socket 6" 1 5 0 100 []; mkJP 80 "Status of load changed report" 4 8 0 65535 [(0, "Not sent"); (1, "Send Hail"); (2, "Send Basic")]; mkJP 90 "Get Temperature" 2 0 0 65535 []; mkJP 100 "Reset 0x65~0x67 to default value" 1 0 0 255 [(0, "Reset")]; mkJP 101 "select channels to report consumtion as item 1" 4 0 0 255 []; mkJP 101 "Select channels to report power as item 1" 4 0 0 255 []; mkJP 102 "Item 2 (kWh)" 4 0 255 0 []; mkJP 102 "Item 2 (power)" 4 0 0 255 []; mkJP 111 "Interval to send out reports of Group 1" 4 600 1 2678400 []; mkJP 112 "Interval to send out reports of Group 2" 4 600 1 2678400 []; mkJP 113 "Interval to send out reports of Group 3" 4 600 1 2678400 []].
Definition fpar26 : list jparam := [mkJP 2 "Make Micro Smart Switch Blink" 2 0 0 65535 []; mkJP 3 "Current Overload Protection" 1 0 0 255 [(0, "Deactivate"); (1, "Activate")]; mkJP 80 "Notification on Status Change" 1 0 0 255 [(0, "Deactivate"); (1, "Hail CC Sent"); (2, "Basic CC Report Sent")]; mkJP 90 "Automated sending of a Report triggered by minimal change of value." 1 0 0 255 [(0, "Deavtivate"); (1, "Activate")]; mkJP 91 "Minimum Change to send Report (Watt)" 2 25 0 65535 []; mkJP 92 "Minimum Change to send Report (%)" 1 5 0 255 []; mkJP 101 "Which reports need to send automatically in timing intervals for group 1" 4 4 0 65535 []; mkJP 102 "Which reports need to send automatically in timing intervals for group 2" 4 8 0 65535 []; mkJP 103 "Which reports need to send automatically in timing intervals for group 3" 4 0 0 65535 []; mkJP 111 "Interval to send out reports of group 1" 4 3 1 2678400 []; mkJP 112 "Interval to send out reports of group 2" 4 600 1 2678400 []; mkJP 113 "Interval to send out reports of group 3" 4 600 1 2678400 []; mkJP 120 "Turn External Button Mode" 1 255 0 255 [(0, "Momentary Button Mode"); (1, "2 State Switch Mode"); (2, "3 Way Switch Mode")]].
Definition fpar27 : list jparam := [mkJP 1 "Type of Sensor Report" 1 0 0 1 [(0, "Power"); (1, "Voltage")]; mkJP 2 "Blinking Behavior" 2 0 0 65535 []; mkJP 80 "Notification on Status Change" 1 0 0 2 [(0, "Nothing"); (1, "Hail"); (2, "Basic CC Report")]; mkJP 90 "Disable Minimum Change report" 1 0 0 1 [(0, "Disabled"); (1, "Enabled")]; mkJP 91 "Minimum Change to send Report (Watt)" 2 50 0 32000 []; mkJP 92 "Minimum Change to send Report (%)" 1 10 0 100 []; mkJP 101 "Reports to send to Group 1 " 4 4 0 65535 []; mkJP 102 "Reports to send to Group 2" 4 4 0 65535 []; mkJP 103 "Reports to send to Group 3" 4 4 0 65535 []; mkJP 111 "Interval to send out reports of group 1" 4 720 0 65535 []; mkJP 112 "Interval to send out reports of group 2" 4 720 0 65535 []; mkJP 113 "Interval to send out reports of group 3" 4 720 0 65535 []].
Definition fpar28 : list jparam := [mkJP 1 "Type of Sensor Report" 1 0 0 1 [(0, "Power"); (1, "Voltage")]; mkJP 2 "Blinking Behavior" 2 0 0 65535 []; mkJP 80 "Notification on Status Change" 1 0 0 2 [(0, "Nothing"); (1, "Hail"); (2, "Basic CC Report")]; mkJP 90 "Disable automated reporting" 1 0 0 1 [(0, "Disabled"); (1, "Enabled")]; mkJP 91 "Minimum Change to send Report (Watt)" 2 50 0 32000 []; mkJP 92 "Minimum Change to send Report (%)" 1 10 0 100 []; mkJP 101 "reports to send automatically" 4 4 0 65535 []; mkJP 102 "Which reports to send automatically to group 2" 4 4 0 65535 []; mkJP 103 "Which reports to send automatically to group 3" 4 4 0 65535 []; mkJP 111 "Interval to send out reports of group 1" 4 720 0 65535 []; mkJP 112 "Interval to send out reports of group 2" 4 720 0 65535 []; mkJP 113 "Interval to send out reports of group 3" 4 720 0 65535 []].
Definition fpar29 : list jparam := [mkJP 2 "Blink" 2 0 0 65535 []; mkJP 3 "Current Overload Protection" 1 0 0 1 [(0, "Disabled"); (1, "Enabled")]; mkJP 80 "Notification on Status Change" 1 0 0 255 [(0, "nothing"); (1, "Hail CC Sent"); (2, "Basic CC Report Sent")]; mkJP 90 "Enables/disables parameter 91 and 92 " 1 0 0 255 [(0, "Deavtivate"); (1, "Activate")]; mkJP 91 "Minimum Change to send Report (Watt)" 2 50 0 65535 []; mkJP 92 "Minimum Change to send Report (%)" 1 10 0 100 []; mkJP 100 "Set 101-103 to default." 1 0 0 1 [(0, "Disabled"); (1, "Enabled")]; mkJP 101 "Automatic reports for group 1" 4 0 0 15 [(0, "Disabled"); (1, "Voltage"); (2, "Current"); (4, "Wattage"); (8, "kWh"); (15, "All Values")]; mkJP 102 "Automatic reports for group 2" 4 0 0 15 [(0, "Disabled"); (1, "Voltage"); (2, "Current"); (4, "Wattage"); (8, "kWh"); (15, "All Values")]; mkJP 103 "Automatic reports for group 3" 4 0 0 15 [(0, "Disabled"); (1, "Voltage"); (2, "Current"); (4, "Wattage"); (8, "kWh"); (15, "All Values")]; mkJP 110 "Set 111-113 to default." 1 0 0 1 [(0, "Disabled"); (1, "Enabled")]; mkJP 111 "Interval to send out reports of group 1" 4 600 1 2678400 []; mkJP 112 "Interval to send out reports of group 2" 4 600 1 2678400 []; mkJP 113 "Interval to send out reports of group 3" 4 600 1 2678400 []; mkJP 120 "Set External Switch/Button Control mode" 1 255 0 0 [(0, "Momentary button mode"); (1, "2-state switch mode"); (255, "Unidentified mode")]; mkJP 255 "Reset to the default Configuration." 1 0 0 0 [(0, "Disabled"); (1, "Enabled")]].
Definition fpar30 : list jparam := [mkJP 2 "Make Micro Smart Switch Blink" 2 0 0 65535 []; mkJP 3 "Current Overload Protection" 1 0 0 255 [(0, "Deactivate"); (1, "Activate")]; mkJP 80 "Notification on Status Change" 1 0 0 255 [(0, "Deactivate"); (1, "Hail CC Sent"); (2, "Basic CC Report Sent")]; mkJP 90 "Automated sending of a Report triggered by minimal change of value." 1 0 0 255 [(0, "Deavtivate"); (1, "Activate")]; mkJP 91 "Minimum Change to send Report (Watt)" 2 25 0 65535 []; mkJP 92 "Minimum Change to send Report (%)" 1 5 0 255 []; mkJP 101 "Which reports need to send automatically in timing intervals for group 1" 4 4 0 65535 []; mkJP 102 "Which reports need to send automatically in timing intervals for group 2" 4 8 0 65535 []; mkJP 103 "Which reports need to send automatically in timing intervals for group 3" 4 0 0 65535 []; mkJP 111 "Interval to send out reports of group 1" 4 3 1 2678400 []; mkJP 112 "Interval to send out reports of group 2" 4 600 1 2678400 []; mkJP 113 "Interval to send out reports of group 3" 4 600 1 2678400 []; mkJP 120 "Turn External Button Mode" 1 255 0 255 [(0, "Momentary Button Mode"); (1, "2 State Switch Mode"); (2, "3 Way Switch Mode")]].
Definition fpar31 : list jparam := [mkJP 2 "Make Micro Smart Dimmer 2nd Edition Blink" 2 0 0 65535 []; mkJP 3 "Current Overload Protection" 1 0 0 255 [(0, "Deactivate"); (1, "Activate")]; mkJP 13 "Enable/Disable CRC16 encapsulation" 1 0 0 255 []; mkJP 80 "Notification on Status Change" 1 0 0 255 [(0, "Deactivate"); (1, "Hail CC Sent"); (2, "Basic CC Report Sent")]; mkJP 90 "Sending of a Report triggered by minimal change of value." 1 0 0 255 [(0, "Deavtivate"); (1, "Activate")]; mkJP 91 "Minimum Change to send Report (Watt)" 2 25 0 65535 []; mkJP 92 "Minimum Change to send Report (%)" 1 5 0 255 []; mkJP 101 "Reports for Group 1" 4 4 0 65535 []; mkJP 102 "Reports for Group 2" 4 8 0 65535 []; mkJP 103 "Reports for Group 3" 4 0 0 65535 []; mkJP 111 "Interval to send out reports of group 1" 4 3 1 2678400 []; mkJP 112 "Interval to send out reports of group 2" 4 600 1 2678400 []; mkJP 113 "Interval to send out reports of group 3" 4 600 1 2678400 []; mkJP 120 "Turn External Button Mode" 1 255 0 255 [(0, "Momentary Button Mode"); (1, "2 State Switch Mode"); (2, "3 Way Switch Mode")]].
Definition fpar32 : list jparam := [mkJP 1 "Multilevel Sensor Report Content" 1 0 0 255 []; mkJP 2 "Make SES blink" 2 0 0 65535 []; mkJP 80 "Automatic Notifications" 1 0 0 255 [(0, "Nothing"); (1, "Hail"); (2, "Basic CC Report")]; mkJP 90 "Enable Parameter 91" 1 0 0 255 [(0, "Disable"); (1, "Enable")]; mkJP 91 "Minimum change in wattage" 2 50 0 65535 []; mkJP 92 "Minimum change in wattage %" 1 10 0 255 []; mkJP 100 "Set 100 to 103 to default" 1 0 0 255 [(0, "Reset")]; mkJP 101 "Group 1 report" 4 8 0 65535 [(2, "Multisensor Report"); (4, "Meter Report (Watts)"); (8, "Meter Report (kWh)")]; mkJP 102 "Group 2 report" 4 0 0 65535 [(2, "Multisensor Report"); (4, "Meter Report (Watts)"); (8, "Meter Report (kWh)")]; mkJP 103 "Group 3 report" 4 0 0 65535 [(2, "Multisensor Report"); (4, "Meter Report (Watts)"); (8, "Meter Report (kWh)")]; mkJP 110 "Set 111 to 113 to default" 1 0 0 255 [(0, "Reset")]; mkJP 111 "Interval group 1" 4 600 0 65535 []; mkJP 112 "Interval group 1" 4 600 0 65535 []; mkJP 113 "Interval group 1" 4 600 0 65535 []; mkJP 254 "Device Tag" 2 0 0 65535 []; mkJP 255 "Device Reset" 1 0 0 255 [(0, "Reset")]].
Definition fpar33 : list jparam := [].
Definition fpar34 : list jparam := [mkJP 2 "Make Micro Switch 2nd Edition Blink" 2 0 0 65535 []; mkJP 80 "Notification on Status Change" 1 0 0 255 [(0, "Deactivate"); (1, "Hail CC Sent"); (2, "Basic CC Report Sent")]; mkJP 101 "Which reports need to send automatically in timing intervals for group 1" 4 4 0 65535 []; mkJP 102 "Which reports need to send automatically in timing intervals for group 2" 4 8 0 65535 []; mkJP 103 "Which reports need to send automatically in timing intervals for group 3" 4 0 0 65535 []; mkJP 111 "Interval to send out reports of group 1" 4 3 1 2678400 []; mkJP 112 "Interval to send out reports of group 2" 4 600 1 2678400 []; mkJP 113 "Interval to send out reports of group 3" 4 600 1 2678400 []; mkJP 120 "Turn External Button Mode" 1 255 0 255 [(0, "Momentary Button Mode"); (1, "2 State Switch Mode"); (2, "3 Way Switch Mode")]; mkJP 200 "Partner ID" 1 0 0 255 [(0, "Aeon Labs Standard Product"); (1, "AT&T")]; mkJP 252 "Enable/disable Lock Configuration" 1 0 0 255 [(0, "Disable"); (1, "Enable")]; mkJP 254 "Device Tag" 2 0 0 65535 []; mkJP 255 "Reset configuration set up to default setting" 1 5 0 255 []].
Definition fpar35 : list jparam := [mkJP 80 "Notification on Status Change" 1 0 0 255 [(0, "Deactivate"); (1, "Hail CC Sent"); (2, "Basic CC Report Sent")]; mkJP 120 "Turn External Button Mode" 1 255 0 255 [(0, "Momentary Button Mode"); (1, "2 State Switch Mode"); (2, "3 Way Switch Mode")]].
Definition fpar36 : list jparam := [].
Definition fpar37 : list jparam := [mkJP 37 "Sirensound and Volume" 2 13 0 65535 []; mkJP 37 "Siren Sound" 2 1 1 5 [(1, "Siren Sound 1"); (2, "Siren Sound 2"); (3, "Siren Sound 3"); (4, "Siren Sound 4"); (5, "Siren Sound 5")]; mkJP 37 "Siren Volume" 2 3 1 3 [(1, "88dB"); (2, "100dB"); (3, "105dB")]; mkJP 80 "Send Notifications" 1 0 0 255 [(0, "Nothing"); (1, "Hail CC"); (2, "Basic CC Report")]; mkJP 252 "Enable/Disable 'Lock' - Configuration" 1 0 0 255 [(0, "Disable"); (1, "Enable")]].
Definition fpar38 : list jparam := [].
Definition fpar39 : list jparam := [mkJP 2 "Repetitions of ringtone" 1 2 0 100 []; mkJP 5 "Default ringtone" 1 1 1 100 []; mkJP 6 "Ringtone to play" 1 0 0 100 [(0, "Stop"); (255, "play the default ringtone")]; mkJP 7 "Control items" 1 0 1 5 [(0, "Ignore"); (1, "Play"); (2, "Stop"); (3, "Pause"); (4, "Next"); (5, "Previous")]; mkJP 8 "Ringtone volume" 1 10 0 10 []; mkJP 10 "Define button- and button+ action" 1 0 0 1 [(0, "“Button ‐” is previous, “Button+” is next"); (1, "“Button ‐” is next, “Button+” is previous")]; mkJP 11 "Define long press button- and button+" 1 0 0 1 [(0, "short press changes vol, long press changes default ringtone"); (1, "long press changes vol, short press changes default ringtone")]; mkJP 42 "Get wireless button battery status" 1 0 0 0 [(0, "Battery Level Good"); (255, "Low Battery")]; mkJP 80 "Enable Notifications" 1 0 0 2 [(0, "nothing"); (1, "hail CC"); (2, "basic CC report")]; mkJP 81 "Enable/disable battery group notification" 1 0 0 1 [(0, "nothing"); (1, "Configuration report parameter 42")]; mkJP 241 "Pair doorbell with button" 4 0 0 0 []; mkJP 252 "Lock configuration" 1 0 0 1 []; mkJP 255 "Reset" 4 0 0 0 []].
Definition fpar40 : list jparam := [mkJP 32 "Startup ringtone" 1 1 1 100 []; mkJP 34 "Sensor Calibration" 1 0 0 1 [(0, "Calibration not active"); (1, "Begin calibration")]; mkJP 35 "Calibration timout" 2 60 1 255 []; mkJP 36 "Number of alarm musics" 1 1 1 100 []; mkJP 37 "Disable opening alarm" 4 1 0 1 [(0, "Disable alarm prompt"); (1, "Enable alarm prompt")]; mkJP 37 "Opening alarm volume" 4 8 1 10 []; mkJP 37 "Opening alarm choice" 4 1 1 4 []; mkJP 37 "Opening alarm LED mode" 4 10 1 10 []; mkJP 38 "Disable closing alarm" 4 1 0 1 [(0, "Disable alarm prompt"); (1, "Enable alarm prompt")]; mkJP 38 "Closing alarm volume" 4 8 1 10 []; mkJP 38 "Closing alarm choice" 4 2 1 4 []; mkJP 38 "Closing alarm LED mode" 4 6 1 10 []; mkJP 39 "Unknown state alarm mode" 4 0 0 0 []; mkJP 40 "Closed alarm mode" 4 0 0 0 []; mkJP 41 "Tamper switch configuration" 1 0 0 255 []; mkJP 42 "Battery state" 1 0 0 16 []; mkJP 43 "Play or Pause ringtone" 1 0 1 255 []; mkJP 44 "Ringtone test volume" 1 0 1 10 []; mkJP 45 "Temperature" 2 0 0 500 []; mkJP 47 "Button definition" 1 0 0 1 [(0, "Mode 0"); (1, "Mode 1")]; mkJP 80 "Door state change report type" 1 2 1 2 [(1, "Send hail CC"); (2, "Send barrier operator report CC")]; mkJP 241 "Pair the Sensor" 4 0 0 1431655681 [(0, "Stop sensor pairing"); (1431655681, "Start sensor pairing")]; mkJP 252 "Lock Configuration" 1 0 0 1 [(0, "Configuration enabled"); (1, "Configuration disabled (locked)")]].
Definition fpar41 : list jparam := [mkJP 2 "Wake up for 10 minutes when batteries are inserted" 1 0 0 255 []; mkJP 3 "On time" 2 240 1 15300 []; mkJP 4 "Motion sensor" 1 1 0 255 [(0, "Disabled"); (1, "Enabled")]; mkJP 40 "Enable/disable the selective reporting" 1 0 0 255 [(0, "Disable"); (1, "Enable")]; mkJP 41 "Threshold change in temperature to induce an automatic report." 2 0 0 65535 []; mkJP 42 "Threshold change in humidity to induce an automatic report." 2 0 0 65535 []; mkJP 43 "Threshold change in luminance to induce an automatic report." 2 0 0 65535 []; mkJP 44 "Threshold change in battery level to induce an automatic report." 2 0 0 65535 []; mkJP 46 "Enable/disable to send the alarm report of low temperature(‐15C)" 1 0 0 255 [(0, "Disable"); (1, "Enabled (The MultiSensor will report the Multi Level Temperature CC wi")]; mkJP 101 "Which reports need to send automatically in timing intervals for group 1" 4 0 0 65535 []; mkJP 102 "Which reports need to send automatically in timing intervals for group 2" 4 0 0 65535 []; mkJP 103 "Which reports need to send automatically in timing intervals for group 3" 4 0 0 65535 []; mkJP 111 "Interval to send out reports of group 1" 4 720 1 2678400 []; mkJP 112 "Interval to send out reports of group 2" 4 720 1 2678400 []; mkJP 113 "Interval to send out reports of group 3" 4 720 1 2678400 []; mkJP 252 "Enable/disable Configuration Locked" 1 0 0 255 [(0, "Disable"); (1, "Enabled")]; mkJP 255 "Reset to default factory setting." 4 1 0 255 [(1, "Resets all configuration parameters to default setting."); (1431655765, "Reset the product to default factory setting and be excluded from the ")]].
Definition fpar42 : list jparam := [mkJP 2 "Blinking Behaviour" 2 0 0 65535 []; mkJP 3 "Current Overload Protection" 1 0 0 255 [(0, "Disabled"); (1, "Enabled")]; mkJP 20 "Output Load Status" 1 0 0 255 [(0, "Last Status"); (1, "Always On"); (2, "Always Off")]; mkJP 80 "Notification on Status Change" 1 0 0 255 [(0, "Disable"); (1, "Hail CC Sent"); (2, "Basic CC Report Sent")]; mkJP 81 "Configure the state of red LED " 1 0 0 255 [(0, "The LED will follow the status of its load"); (1, "Switch off after 5 seconds")]; mkJP 90 "Enables/disables parameter 91/92" 1 0 0 255 [(0, "Disable"); (1, "Enable")]; mkJP 91 "Minimum Change to send Report (Watt)" 2 25 0 32000 []; mkJP 92 "Minimum Change to send Report (%)" 1 5 0 100 []; mkJP 100 "Set 101‐103 to default" 1 0 0 255 [(0, "Set to Default"); (1, "Nothing")]; mkJP 101 "Report type to send to Group 1" 4 4 0 65535 []; mkJP 102 "Report type to send to Group 2" 4 8 0 65535 []; mkJP 103 "Report type to send to Group 3" 4 0 0 65535 []; mkJP 111 "Interval to send out reports to Group 1" 4 720 0 65535 []; mkJP 112 "Interval to send out reports of group 2" 4 720 0 65535 []; mkJP 113 "Interval to send out reports of group 3" 4 65535 0 65535 []; mkJP 252 "Enable/disable Configuration Lock" 1 0 0 255 [(0, "Disable"); (1, "Enable")]].
Definition fpar43 : list jparam := [mkJP 3 "Current Overload Protection" 1 0 0 255 [(0, "Deactivate"); (1, "Activate")]; mkJP 20 "Output Load Status" 1 0 0 255 [(0, "Last Status"); (1, "Always ON"); (2, "Always OFF")]; mkJP 80 "Notification on Status Change" 1 0 0 255 [(0, "Deactivate"); (1, "Hail CC Sent"); (2, "Basic CC Report Sent")]; mkJP 90 "Send report on value change" 1 0 0 255 [(0, "Deavtivate"); (1, "Activate")]; mkJP 91 "Minimum Change to send Report (Watt)" 2 25 0 65535 []; mkJP 92 "Minimum Change to send Report (%)" 1 5 0 255 []; mkJP 101 "reports to send automatically" 4 4 0 65535 []; mkJP 102 "which reports to send to group 2" 4 8 0 65535 []; mkJP 103 "which reports to send to group 3" 4 0 0 65535 []; mkJP 111 "Interval to send out reports of group 1" 4 3 1 2678400 []; mkJP 112 "Interval to send out reports of group 2" 4 600 1 2678400 []; mkJP 113 "Interval to send out reports of group 3" 4 600 1 2678400 []; mkJP 120 "Turn External Button Mode" 1 255 0 255 [(0, "Momentary Button Mode"); (1, "2 State Switch Mode"); (2, "3 Way Switch Mode")]].
Definition fpar44 : list jparam := [mkJP 37 "Siren Sound" 2 1 0 5 [(0, "Do not change the current Siren sound"); (1, "Siren sound 1 is selected"); (2, "Siren sound 2 is selected"); (3, "Siren sound 3 is selected"); (4, "Siren sound 4 is selected"); (5, "Siren sound 5 is selected")]; mkJP 37 "Siren Volume" 2 3 0 3 [(0, "Do not change the current volume"); (1, "Set the volume to 88 dB"); (2, "Set the volume to 100 dB"); (3, "Set the volume to 105 dB")]; mkJP 80 "Enable Notifications to Group 1" 1 25 0 255 []; mkJP 200 "Partner ID" 1 0 0 255 []; mkJP 252 "Enable/disable Lock Configuration" 1 0 0 1 [(0, "Setting of configuration parameters is allowed"); (1, "All configuration parameters cannot be set (Locked)")]].
Definition fpar45 : list jparam := [mkJP 250 "Use Mode setting" 1 0 0 255 [(0, "Group Mode"); (1, "Scene Mode")]].
Definition fpar46 : list jparam := [mkJP 1 "Send Sensor binary report on open/close events" 1 0 0 1 [(0, "On for opened, Off for closed"); (1, "Off for opened, On for closed")]; mkJP 3 "Send Basic Set on open/close event" 1 0 0 1 [(0, "On for opened, Off for closed"); (1, "Off for opened, On for closed")]; mkJP 101 "Low battery voltage check" 1 0 0 1 [(0, "Disable"); (1, "Enable")]; mkJP 111 "Low battery voltage check time" 4 86640 240 2147483647 []; mkJP 121 "Configuration Value 4(LSB) SENSOR BINARY" 4 0 0 255 [(0, "disable SENSOR BINARY (factory)"); (16, "enable SENSOR BINARY")]; mkJP 121 "Config value 3 - BASIC SET" 4 1 0 255 [(0, "do not send BASIC SET"); (1, "send BASIC SET (factory default)")]; mkJP 252 "Permit other configurations" 1 0 0 1 [(0, "Unlock"); (1, "Lock")]; mkJP 255 "Reset to default" 1 0 0 255 []].
Definition fpar47 : list jparam := [mkJP 2 "Energy detection mode" 1 0 0 3 [(0, "Disabled"); (1, "Enabled")]; mkJP 3 "Selective Reporting" 1 1 0 16 []; mkJP 4 "Current Threshold - Whole HEM" 2 50 0 60000 []; mkJP 5 "Current Threshold - Clamp 1" 2 50 0 60000 []; mkJP 6 "Current Threshold - Clamp 2" 2 50 0 60000 []; mkJP 7 "Current Threshold - Clamp 3" 2 50 0 60000 []; mkJP 8 "Percent Change - Whole HEM" 1 10 0 100 []; mkJP 9 "Percent Change - Clamp 1" 1 10 0 100 []; mkJP 10 "Percent Change - Clamp 2" 1 10 0 100 []; mkJP 11 "Percent Change - Clamp 3" 1 10 0 100 []; mkJP 101 "Report Group 1" 4 2 0 2147483647 []; mkJP 102 "Report Group 2" 4 1 0 2147483647 []; mkJP 103 "Report Group 3" 4 0 0 2147483647 []; mkJP 111 "Interval to send out reports of group 1" 4 60 1 2147483647 []; mkJP 112 "Interval to send out reports of group 2" 4 120 1 2147483647 []; mkJP 113 "Interval to send out reports of group 3" 4 120 1 2147483647 []].
Definition fpar48 : list jparam := [mkJP 3 "Current overload protection enable" 1 0 0 1 [(0, "disabled"); (1, "enabled")]; mkJP 20 "Output load after re-power" 1 0 0 2 [(0, "last status"); (1, "always on"); (2, "always off")]; mkJP 33 "RGB LED color testing" 4 0 0 0 []; mkJP 80 "Enable send to associated devices" 1 0 0 2 [(0, "nothing"); (1, "hail CC"); (2, "basic CC report")]; mkJP 81 "Configure LED state" 1 0 0 2 [(0, "LED follows load"); (1, "LED follows load for 5 seconds"); (2, "Night light mode")]; mkJP 83 "Color in night light mode" 3 0 0 255 []; mkJP 83 "Blue night light color value" 3 221 0 255 []; mkJP 83 "Green night light color value" 3 160 0 255 []; mkJP 83 "Red night light color value" 3 221 0 255 []; mkJP 84 "Color in energy mode " 3 0 0 255 []; mkJP 84 "Green brightness in energy mode (%)" 3 50 0 100 []; mkJP 84 "Yellow brightness in energy mode (%)" 3 50 0 100 []; mkJP 84 "Red brightness in energy mode (%)" 3 50 0 100 []; mkJP 90 "Enable items 91 and 92" 1 1 0 1 [(0, "disabled"); (1, "enabled")]; mkJP 91 "Wattage Threshold" 2 25 0 60000 []; mkJP 92 "Wattage Percent Change" 1 5 0 100 []; mkJP 100 "Set 101‐103 to default. " 1 0 0 1 [(0, "False"); (1, "True")]; mkJP 101 "Values to send to group 1" 4 4 0 15 [(0, "Nothing"); (1, "Voltage"); (2, "Current"); (4, "Wattage"); (8, "kWh"); (15, "All Values")]; mkJP 102 "Values to send to group 2" 4 8 0 15 [(0, "Nothing"); (1, "Voltage"); (2, "Current"); (4, "Wattage"); (8, "kWh"); (15, "All Values")]; mkJP 103 "Values to send to group 3" 4 0 0 15 [(0, "Nothing"); (1, "Voltage"); (2, "Current"); (4, "Wattage"); (8, "kWh"); (15, "All Values")]; mkJP 110 "Set 111‐113 to default." 1 0 0 1 [(0, "False"); (1, "True")]; mkJP 111 "Time interval for sending to group 1" 4 3 1 2147483647 []; mkJP 112 "Time interval for sending to group 2" 4 600 1 2147483647 []; mkJP 113 "Time interval for sending to group 3" 4 2147483647 600 1 []; mkJP 252 "Configuration Locked" 1 0 0 1 [(0, "disabled"); (1, "enabled")]; mkJP 255 "RESET" 1 0 0 1 []].
Definition fpar49 : list jparam := [mkJP 1 "Send Sensor binary report on open/close events" 1 0 0 0 [(0, "On for opened, Off for closed"); (1, "Off for opened, On for closed")]; mkJP 2 "Enable wake up 10 minutes when power on" 1 0 0 0 [(0, "No"); (1, "Yes")]; mkJP 3 "Send Basic Set on open/close event" 1 0 0 0 [(0, "On for opened, Off for closed"); (1, "Off for opened, On for closed")]; mkJP 39 "Send battery report when less than percentage" 1 10 10 50 []; mkJP 111 "Set the interval time of battery report" 4 0 0 2147483647 []; mkJP 121 "Send Sensor Binary report to associated devices" 4 0 0 1 []; mkJP 121 "Send Basic report to associated devices" 4 1 0 1 []; mkJP 122 "Notification type to send" 1 6 1 11 [(1, "Smoke alarm"); (2, "CO alarm"); (3, "CO2 alarm"); (4, "Heat alarm"); (5, "Water alarm"); (6, "Access control"); (7, "Home security"); (8, "Power management"); (9, "System"); (10, "Emergency alarm"); (11, "Timer ended")]].
Definition fpar50 : list jparam := [mkJP 32 "Toggle send report on color change" 1 0 0 1 [(0, "disable color updates"); (1, "send HAIL CC")]; mkJP 34 "Allow external switch to toggle bulb" 1 0 0 1 [(0, "disabled"); (1, "enabled")]; mkJP 35 "Allow external switch to change color" 1 1 0 1 [(0, "disabled"); (1, "enabled")]; mkJP 36 "Control color mode" 1 0 0 3 [(0, "reboot normal mode"); (1, "boot into color programming"); (2, "exit color programming"); (3, "save and exit color programming")]; mkJP 37 "Colour Residence Time" 4 0 0 255 []; mkJP 37 "Colour Change Speed" 4 0 0 255 []; mkJP 37 "Cycle count" 4 0 0 255 []; mkJP 37 "Color transitions (Value 1 MSB) see Overview" 4 0 0 127 [(0, "single color mode with smooth color transitions (default)"); (1, "rainbow mode with smooth color transitions"); (2, "multi color mode with smooth color transitions"); (3, "random mode with smooth color transitions"); (64, "single color mode with direct color transitions"); (65, "rainbow color mode with direct color transitions"); (66, "multi color mode with direct color transitions"); (67, "random color mode with direct color transitions"); (128, "single color mode with fade out/fade in transitions"); (129, "rainbow color mode with fade out/fade in transitions"); (130, "multi color mode with fade out/fade in transitions"); (131, "random color mode with fade out/fade in transitions")]; mkJP 38 "Color index configuration for multi mode (1,2)" 4 0 0 136 []; mkJP 38 "Color index configuration for multi mode (3,4)" 4 0 0 136 []; mkJP 38 "Color index configuration for multi mode (5.6)" 4 0 0 136 []; mkJP 38 "Color index configuration for multi mode (7,8)" 4 0 0 136 []; mkJP 80 "Enable notifications" 1 0 0 255 [(0, "Disable"); (1, "Hail"); (2, "Basic")]; mkJP 252 "Lock configuration" 1 0 0 255 [(0, "disabled"); (1, "enabled")]].
Definition fpar51 : list jparam := [mkJP 3 "Current Overload Protection" 1 0 0 1 [(0, "Disabled"); (1, "Enabled")]; mkJP 20 "Initial Load State" 1 0 0 2 [(0, "Last Status"); (1, "Always On"); (2, "Always Off")]; mkJP 33 "RGB LED Color Test" 4 0 0 2147483647 []; mkJP 80 "Notification on Status Change" 1 0 0 2 [(0, "None"); (1, "Hail"); (2, "Basic CC Report")]; mkJP 81 "LED Indicator Mode" 1 0 0 2 [(0, "Energy Mode (Load State)"); (1, "Momentary Mode"); (2, "Night Light Mode")]; mkJP 83 "LED Color for Night Light" 3 1774619 0 16777215 []; mkJP 84 "LED Brightness" 3 3289650 0 6579300 []; mkJP 90 "Enable Report triggered by minimal change of value" 1 0 0 1 [(0, "Disabled"); (1, "Enabled")]; mkJP 91 "Minimum Change to send Report (Watt)" 2 25 0 60000 []; mkJP 92 "Minimum Change to send Report (%)" 1 5 0 100 []; mkJP 100 "Reset Report Assignments for All Groups" 1 0 0 1 [(0, "Do Nothing"); (1, "Reset to Defaults")]; mkJP 101 "Reports for Group 1" 4 0 0 2147483647 []; mkJP 102 "Reports for Group 2" 4 0 0 2147483647 []; mkJP 103 "Reports for Group 3" 4 0 0 2147483647 []; mkJP 110 "Reset Report Time Intervals for All Groups" 1 0 0 1 [(0, "Do Nothing"); (1, "Reset to Defaults")]; mkJP 111 "Report Group 1 Time Interval" 4 600 0 2147483647 []; mkJP 112 "Report Group 2 Time Interval" 4 600 0 2147483647 []; mkJP 113 "Report Group 3 Time Interval" 4 600 0 2147483647 []; mkJP 200 "Partner ID" 1 0 0 1 [(0, "Aeon Labs Standard Product"); (1, "Others")]; mkJP 252 "Configuration Lock" 1 0 0 1 [(0, "Disabled"); (1, "Enabled")]; mkJP 254 "Device Tag" 2 0 0 65535 []; mkJP 255 "Reset to Factory Default Settings" 1 0 0 255 [(0, "Reset")]].
Definition fpar52 : list jparam := [mkJP 2 "Stay Awake in Battery Mode			" 1 0 0 1 [(0, "Disable"); (1, "enable")]; mkJP 3 "Motion Sensor reset timeout" 2 240 5 3600 []; mkJP 4 "Motion sensor sensitivity" 1 5 0 255 [(0, "Disable"); (1, "Enable, sensitivity level 1 (minimum)"); (2, "Enable, sensitivity level 2"); (3, "Enable, sensitivity level 3"); (4, "Enable, sensitivity level 4"); (5, "Enable, sensitivity level 5 (maximum)")]; mkJP 5 "Motion Sensor Triggered Command" 1 1 0 255 [(1, "Send Basic Set CC"); (2, "Send Sensor Binary Report CC")]; mkJP 39 "Low Battery Report" 1 20 10 50 []; mkJP 40 "Selective Reporting" 1 0 0 1 [(0, "Disable"); (1, "Enable")]; mkJP 41 "Temperature Threshold" 2 20 0 100 []; mkJP 42 "Humidity Threshold" 1 10 0 100 []; mkJP 43 "Luminance Threshold" 2 100 0 1000 []; mkJP 44 "Battery Threshold" 1 10 0 100 []; mkJP 45 "Ultraviolet Threshold" 1 2 0 100 []; mkJP 46 "Send Alarm Report if low temperature" 1 0 0 255 [(0, "Disable"); (1, "Enable")]; mkJP 100 "Set parameters 101-103 to default.			" 1 0 0 1 []; mkJP 101 "Group 1 Periodic Reports" 4 241 0 65535 []; mkJP 102 "Group 2 Periodic Reports			" 4 0 0 65535 []; mkJP 103 "Group 3 Periodic Reports			" 4 0 0 65535 []; mkJP 110 "Set parameters 111-113 to default.			" 1 0 0 1 []; mkJP 111 "Group 1 Report Interval" 4 3600 5 2678400 []; mkJP 112 "Group 2 Report Interval" 4 3600 5 2678400 []; mkJP 113 "Group 3 Report Interval" 4 3600 5 2678400 []; mkJP 201 "Temperature Calibration" 1 0 (-100) 100 []; mkJP 202 "Humidity Sensor Calibration" 1 0 (-50) 50 []; mkJP 203 "Luminance Sensor Calibration" 2 0 (-1000) 1000 []; mkJP 204 "Ultraviolet Sensor Calibration" 1 0 (-10) 10 []; mkJP 252 "Lock Configuration Parameters			" 1 0 0 1 [(0, "Disable"); (1, "Enable")]; mkJP 255 "Reset to default factory settings" 4 0 0 1431655765 [(1, "Resets all configuration parameters to defaults"); (1431655765, "Reset to default factory settings and be excluded")]].
Definition fpar53 : list jparam := [mkJP 2 "Stay Awake in Battery Mode			" 1 0 0 1 [(0, "Disable"); (1, "enable")]; mkJP 3 "Motion Sensor reset timeout" 2 240 5 3600 []; mkJP 4 "Motion sensor sensitivity" 1 5 0 255 [(0, "Disable"); (1, "Enable, sensitivity level 1 (minimum)"); (2, "Enable, sensitivity level 2"); (3, "Enable, sensitivity level 3"); (4, "Enable, sensitivity level 4"); (5, "Enable, sensitivity level 5 (maximum)")]; mkJP 5 "Motion Sensor Triggered Command" 1 1 0 255 [(1, "Send Basic Set CC"); (2, "Send Sensor Binary Report CC")]; mkJP 9 "Report the current power mode" 2 0 0 1 []; mkJP 39 "Low Battery Report" 1 20 10 50 []; mkJP 40 "Selective Reporting" 1 0 0 1 [(0, "Disable"); (1, "Enable")]; mkJP 41 "Temperature Threshold" 3 20 0 100 []; mkJP 41 "Temperature Threshold Unit" 3 1 1 2 [(1, "Celsius"); (2, "Fahrenheit")]; mkJP 41 "Temperature Threshold" 3 0 0 100 []; mkJP 42 "Humidity Threshold" 1 10 0 100 []; mkJP 43 "Luminance Threshold" 2 100 0 1000 []; mkJP 44 "Battery Threshold" 1 10 0 100 []; mkJP 45 "Ultraviolet Threshold" 1 2 0 100 []; mkJP 46 "Send Alarm Report if low temperature" 1 0 0 255 [(0, "Disable"); (1, "Enable")]; mkJP 100 "Set parameters 101-103 to default.			" 1 0 0 1 []; mkJP 101 "Group 1 Periodic Reports" 4 241 0 65535 []; mkJP 102 "Group 2 Periodic Reports			" 4 0 0 65535 []; mkJP 103 "Group 3 Periodic Reports			" 4 0 0 65535 []; mkJP 110 "Set parameters 111-113 to default.			" 1 0 0 1 []; mkJP 111 "Group 1 Report Interval" 4 3600 5 2678400 []; mkJP 112 "Group 2 Report Interval" 4 3600 5 2678400 []; mkJP 113 "Group 3 Report Interval" 4 3600 5 2678400 []; mkJP 201 "Temperature Calibration" 2 0 (-128) 127 []; mkJP 201 "Temperature Calibration Unit" 2 1 1 2 [(1, "Celsius"); (2, "Fahrenheit")]; mkJP 201 "Temperature Calibration Value" 2 0 (-127) 127 []; mkJP 202 "Humidity Sensor Calibration" 1 0 (-50) 50 []; mkJP 203 "Luminance Sensor Calibration" 2 0 (-1000) 1000 []; mkJP 204 "Ultraviolet Sensor Calibration" 1 0 (-10) 10 []; mkJP 252 "Lock Configuration Parameters			" 1 0 0 1 [(0, "Disable"); (1, "Enable")]; mkJP 255 "Reset to default factory settings" 4 0 0 1431655765 [(1, "Resets all configuration parameters to defaults"); (1431655765, "Reset to default factory settings and be excluded")]].
Definition fpar54 : list jparam := [mkJP 2 "Stay Awake in Battery Mode			" 1 0 0 1 [(0, "Disable"); (1, "enable")]; mkJP 3 "Motion Sensor reset timeout" 2 240 5 3600 []; mkJP 4 "Motion sensor sensitivity" 1 5 0 255 [(0, "Disable"); (1, "Enable, sensitivity level 1 (minimum)"); (2, "Enable, sensitivity level 2"); (3, "Enable, sensitivity level 3"); (4, "Enable, sensitivity level 4"); (5, "Enable, sensitivity level 5 (maximum)")]; mkJP 5 "Motion Sensor Triggered Command" 1 1 0 255 [(1, "Send Basic Set CC"); (2, "Send Sensor Binary Report CC")]; mkJP 8 "Timeout after wake up" 1 30 8 255 []; mkJP 9 "Report the current power mode" 2 0 0 1 []; mkJP 39 "Low Battery Report" 1 20 10 50 []; mkJP 40 "Selective Reporting" 1 0 0 1 [(0, "Disable"); (1, "Enable")]; mkJP 41 "Temperature Threshold" 2 20 0 100 [(0, "Temperature Threshold Unit")]; mkJP 41 "Temperature Threshold Unit" 2 1 1 2 [(1, "Celsius"); (2, "Fahrenheit")]; mkJP 41 "Temperature Threshold" 2 0 0 100 []; mkJP 42 "Humidity Threshold" 1 10 0 100 []; mkJP 43 "Luminance Threshold" 2 100 0 1000 []; mkJP 44 "Battery Threshold" 1 10 0 100 []; mkJP 45 "Ultraviolet Threshold" 1 2 0 100 []; mkJP 46 "Send Alarm Report if low temperature" 1 0 0 255 [(0, "Disable"); (1, "Enable")]; mkJP 81 "LED function" 1 0 0 1 []; mkJP 100 "Set parameters 101-103 to default.			" 1 0 0 1 []; mkJP 101 "Group 1 Periodic Reports" 4 241 0 65535 []; mkJP 102 "Group 2 Periodic Reports			" 4 0 0 65535 []; mkJP 103 "Group 3 Periodic Reports			" 4 0 0 65535 []; mkJP 110 "Set parameters 111-113 to default.			" 1 0 0 1 []; mkJP 111 "Group 1 Report Interval" 4 3600 5 2678400 []; mkJP 112 "Group 2 Report Interval" 4 3600 5 2678400 []; mkJP 113 "Group 3 Report Interval" 4 3600 5 2678400 []; mkJP 201 "Temperature Calibration" 2 0 (-128) 127 []; mkJP 201 "Temperature Calibration Unit" 2 1 1 2 [(1, "Celsius"); (2, "Fahrenheit")]; mkJP 201 "Temperature Calibration Value" 2 0 (-127) 127 []; mkJP 202 "Humidity Sensor Calibration" 1 0 (-50) 50 []; mkJP 203 "Luminance Sensor Calibration" 2 0 (-1000) 1000 []; mkJP 204 "Ultraviolet Sensor Calibration" 1 0 (-10) 10 []; mkJP 252 "Lock Configuration Parameters			" 1 0 0 1 [(0, "Disable"); (1, "Enable")]; mkJP 255 "Reset to default factory settings" 4 0 0 1431655765 [(1, "Resets all configuration parameters to defaults"); (1431655765, "Reset to default factory settings and be excluded")]].
Definition fpar55 : list jparam := [mkJP 3 "Current Overload Protection" 1 1 0 1 [(0, "Disable"); (1, "(Default) Enable")]; mkJP 4 "Overheat protection" 1 0 0 1 [(0, "(Default) Disable"); (1, "Enable")]; mkJP 20 "Configure the output status after re-power on it" 1 0 0 2 [(0, "(Default) Last status"); (1, "Always on"); (2, "Always off")]; mkJP 80 "Group 1 notificaiton" 1 0 0 4 [(0, "(Default) Send Nothing"); (1, "Send Hail CC"); (2, "Send Basic CC report"); (3, "Send Multilevel Switch report"); (4, "Send Hail CC when using the manual switch")]; mkJP 81 "Group 3 notificaiton" 1 0 0 1 [(0, "Send Nothing"); (1, "(Default) Send Basic Set CC")]; mkJP 82 "Group 4 notificaiton" 1 1 0 1 [(0, "Send Nothing"); (1, "(Default) Send Basic Set CC")]; mkJP 85 "Set appointment 1" 4 0 0 16843197 []; mkJP 86 "Set appointment 2" 4 0 0 16843197 []; mkJP 90 "(En/dis)able 91 and 92" 1 0 0 1 [(0, "(Default) Disable"); (1, "Enable")]; mkJP 91 "Set the threshold value of wattage" 2 25 0 60000 []; mkJP 92 "Set the threshold value of wattage" 1 5 0 100 []; mkJP 100 "Reset 101-103 to default" 1 0 0 0 [(0, "Reset the parameter 101-103")]; mkJP 102 "Set group 2 reports" 1 0 0 0 []; mkJP 103 "To set which reports need to be sent in Report group 3" 1 0 0 15 []; mkJP 110 "Reset 111-113 to default" 1 0 0 0 [(0, "Reset the parameter 111-113")]; mkJP 111 "Automatic report interval group 1" 4 2147483647 1 2147483647 []; mkJP 112 "Automatic report interval group 2" 4 2147483647 1 2147483647 []; mkJP 113 "Automatic report interval group 3" 4 2147483647 0 2147483647 []; mkJP 120 "Configure the external switch mode for S1" 1 0 0 3 [(0, "(Default) Enter automatic identification mode"); (1, "Momentary push button mode"); (2, "3 way switch mode"); (3, "2-state switch mode")]; mkJP 121 "Configure the external switch mode for S2" 1 0 0 3 [(0, "(Default) Enter automatic identification mode"); (1, "Momentary push button mode"); (2, "3 way switch mode"); (3, "2-state switch mode")]; mkJP 122 "Get the state of touch panel port" 1 0 0 5 [(0, "(Default) the touch panel is not connected."); (5, "the touch panel is connected")]; mkJP 123 "Set the control destination for external switch S1" 1 3 1 3 [(1, "control the output loads of itself"); (2, "control the other nodes"); (3, "(Default) control the output loads of itself and other nodes")]; mkJP 124 "Set the control destination for external switch S2" 1 3 1 3 [(1, "control the output loads of itself"); (2, "control the other nodes"); (3, "(Default) control the output loads of itself and other nodes")]; mkJP 125 "Set the default dimming rate" 1 255 1 255 []; mkJP 128 "Get the current working mode" 1 0 0 2 [(0, "(Default) Unknown working mode"); (1, "2-wire mode"); (2, "3-wire mode")]; mkJP 129 "Set the dimming principle" 1 1 0 1 [(0, "Trailing edge mode"); (1, "(Default) Leading edge mode")]; mkJP 130 "To get what type of load the Dimmer is connected to" 1 0 0 3 [(0, "(Default) Unknown load"); (1, "Resistive load"); (2, "Capacitive load"); (3, "Inductive load")]; mkJP 131 "Set the min brightness level that the load can reach to" 1 99 0 99 []; mkJP 132 "Set the max brightness level that the load can reach to" 1 99 0 99 []; mkJP 249 "Set the recognition way of load" 1 2 0 2 [(0, "Never recognize the load when power on"); (1, "Only recognize once when first power on"); (2, "(Default) Recognize the load once power on")]; mkJP 252 "Lock/unlock configuration parameters" 1 0 0 1 [(0, "(Default) Unlock"); (1, "Lock")]; mkJP 255 "Reset the Nano Dimmer" 4 0 0 1431655765 [(0, "(Default) factory default"); (1431655765, "factory default and remove")]].
Definition fpar56 : list jparam := [mkJP 1 "Value that will be sent on open/close events" 1 0 0 1 [(0, "On for opened, Off for closed"); (1, "	Off for opened, On for closed")]; mkJP 39 "Low battery threshold (10% to 50%)" 1 20 10 50 []; mkJP 101 "Low battery voltage check" 1 1 0 1 [(0, "Disable"); (1, "Enable")]; mkJP 111 "Low battery voltage check time" 4 86640 240 134217727 []; mkJP 121 "Reporting mode on open/close event" 1 1 0 3 [(0, "Send nothing"); (1, "Send Basic Set CC"); (2, "Send Sensor Binary Report CC"); (3, "Send Basic Set CC and Sensor Binary Report CC")]; mkJP 252 "Lock/Unlock all configuration parameters" 1 0 0 1 [(0, "Unlock"); (1, "Lock")]; mkJP 255 "Reset sensor to factory default and remove from network" 4 1 0 2147483647 []].
Definition fpar57 : list jparam := [mkJP 33 "RGB value" 3 0 1 4 [(1, "Reserved"); (2, "Red value"); (3, "Green value"); (4, "Blue value")]; mkJP 82 "Default status of the LED" 1 0 0 1 [(0, "The green LED remains On for 2 seconds"); (1, "Off")]; mkJP 200 "Partner ID" 1 0 0 1 [(0, "Aeon Labs Standard Product"); (1, "others")]; mkJP 252 "Enable/disable the Configuration to be locked" 1 0 0 1 [(0, "disable"); (1, "enable")]; mkJP 254 "Device Tag." 2 0 0 0 []; mkJP 255 "Reset to factory default" 4 1 0 0 [(0, "DELETE ME"); (1431655765, "Reset to factory default")]; mkJP 255 "Reset configuration" 1 1 0 0 [(0, "Reset configuration")]].
Definition fpar58 : list jparam := [mkJP 1 "Touch sound" 1 1 0 1 [(0, "Disable"); (1, "Enable")]; mkJP 2 "Touch vibration" 1 1 0 1 [(0, "Disable"); (1, "Enable")]; mkJP 3 "Button slide" 1 1 0 1 [(0, "Disable"); (1, "Enable")]; mkJP 4 "Notification report" 1 1 0 3 [(1, "Central scene"); (3, "Central scene and config")]; mkJP 39 "Low battery value" 1 5 0 50 []; mkJP 255 "Reset the WallMote Quad" 4 0 0 0 [(0, "Reset to factory default"); (1431655765, "Reset and remove")]].
Definition fpar59 : list jparam := [].
Definition fpar60 : list jparam := [mkJP 1 "Set to Default" 1 1 1 255 []; mkJP 2 "Destination routine on/off" 1 255 0 25 []; mkJP 3 "Desitnation routine succes time" 1 60 0 0 []; mkJP 4 "Destination routine failed time" 1 240 0 0 []; mkJP 7 "Select index sound/light mode" 1 1 0 6 []; mkJP 8 "power offline sound/light mode" 1 6 0 6 []; mkJP 10 "sound/light index 1" 18 0 0 0 []; mkJP 28 "sound/light index 2" 18 0 0 0 []; mkJP 46 "sound/light index 3" 18 0 0 0 []; mkJP 64 "sound/light index 4" 18 0 0 0 []; mkJP 82 "sound/light index 5" 18 0 0 0 []; mkJP 100 "sound/light index 6" 18 0 0 0 []].
Definition fpar61 : list jparam := [mkJP 1 "Reset to factory settings" 1 0 0 255 []; mkJP 2 "The way how the button reacts when press/released" 1 0 0 255 [(0, "Toggle light when button is pressed, no action when button is released"); (1, "Toggle light when button is released, Start dimming when button presse"); (2, "Toggle light when button is pressed and when button is Released, start")]; mkJP 3 "The way the Built-in Dimmer reacts when light is turned on/off with button" 1 0 0 255 [(0, "Switch own light on and send a Z-Wave message to all associated nodes "); (1, "Don.t switch own light on but only send a Z-Wave message to associated")]; mkJP 4 "Enable dimming" 1 0 0 255 [(0, "Disable"); (1, "Enable")]; mkJP 6 "Maximum load" 2 200 0 65535 []; mkJP 7 "Dimming speed" 1 3 0 255 []; mkJP 8 "Fading up speed" 1 3 0 255 []; mkJP 9 "Toggle time" 1 50 0 255 []; mkJP 11 "Auto meter report: percentage" 1 20 0 255 []; mkJP 12 "Auto meter report: watt" 1 10 0 255 []; mkJP 13 "Auto meter report: time" 1 10 0 255 []; mkJP 14 "Last known status" 1 0 0 255 []; mkJP 15 "Fading down speed" 1 1 0 255 []].
Definition fpar62 : list jparam := [mkJP 1 "Reset to factory settings" 1 0 0 255 []; mkJP 2 "External contact behavior" 1 0 0 255 [(0, "Send alarm"); (1, "Send basic frame")]; mkJP 5 "Operating mode." 1 1 0 255 [(1, "Normal"); (2, "Mode 1 report"); (3, "Always-on")]; mkJP 6 "Temperature offset" 2 0 (-32768) 32767 []].
Definition fpar63 : list jparam := [mkJP 1 "Set to Default" 1 0 0 255 []; mkJP 2 "Amount of decimals" 1 0 0 3 []; mkJP 3 "Power Limit " 2 4500 0 4500 []; mkJP 4 "Start up with last known socket status" 1 0 0 255 []; mkJP 6 "Auto report %" 1 20 10 100 []; mkJP 7 "Auto report Watt" 1 10 5 255 []; mkJP 8 "Auto report time" 1 20 10 255 []; mkJP 9 "Relais delay time" 1 50 0 255 []; mkJP 10 "Led indicator" 1 0 0 2 []].
Definition fpar64 : list jparam := [mkJP 1 "Set to default" 1 0 0 255 [(255, "Reset")]; mkJP 2 "Data request interval" 1 14 1 255 []; mkJP 3 "T room update difference" 1 1 1 255 []; mkJP 4 "T setpoint update difference" 1 5 1 255 []; mkJP 5 "Unsolicited CRC" 1 0 0 255 [(0, "Off"); (255, "On")]; mkJP 6 "Type of 'special' thermostat" 1 0 0 2 [(0, "No special"); (1, "Remeha Celcia 20"); (2, "Honeywell (rounded temperatures)")]; mkJP 7 "Status auto report" 1 0 0 255 [(0, "Disable boiler/thermostat status messages auto report"); (255, "Enable boiler/thermostat status messages auto report")]; mkJP 9 "Enable/Disable thermostat schedule" 1 0 0 255 [(0, "Disable thermostat schedule"); (255, "Enable thermostat schedule")]; mkJP 11 "Readout manual setpoint thermostat" 1 0 0 255 [(0, "Readout OFF"); (255, "Readout ON")]].
Definition fpar65 : list jparam := [mkJP 1 "Reset to factory settings" 1 0 0 255 []; mkJP 2 "Mode timeout" 2 900 0 0 []; mkJP 3 "Switch off time" 2 2700 0 0 []; mkJP 4 "sensitivity" 1 80 0 127 []; mkJP 5 "The mode" 1 2 0 0 [(1, "Mode 1: no detection possible. Battery save mode."); (2, "Mode 2: normal operation mode: send on after detection and off after g"); (3, "Mode 3: Z-Wave chip is always on to request e.g. version or manufactur")]; mkJP 6 "The temperature offset" 2 0 0 0 []; mkJP 7 "Light table 100 %" 2 17 0 0 []; mkJP 8 "Light table 90 %" 2 38 0 0 []; mkJP 9 "Light table 80 %" 2 85 0 0 []; mkJP 10 "Light table 70 %" 2 186 0 0 []; mkJP 11 "Light table 60 %" 2 407 0 0 []; mkJP 12 "Light table 50 %" 2 891 0 0 []; mkJP 13 "Light table 40 %" 2 1949 0 0 []; mkJP 14 "Light table 30 %" 2 4265 0 0 []; mkJP 15 "Light table 20 %" 2 9332 0 0 []; mkJP 16 "Light table 10 %" 2 20417 0 0 []].
Definition fpar66 : list jparam := [mkJP 4 "Baud Rate" 2 1152 0 40000 []].
Definition fpar67 : list jparam := [mkJP 1 "Reset to factory settings" 1 0 0 255 []; mkJP 4 "Enable dimming" 1 0 0 255 [(0, "Disable"); (1, "Enable")]; mkJP 6 "Maximum powerload" 2 125 25 150 []; mkJP 7 "Dimming speed" 1 3 0 255 []; mkJP 8 "Fading up speed" 1 1 0 255 []; mkJP 11 "Auto meter report: percentage" 1 1 0 255 []; mkJP 12 "Auto meter report: watt" 1 5 0 255 []; mkJP 13 "Auto meter report: time" 1 10 0 255 []; mkJP 14 "Last known status" 1 0 0 255 []; mkJP 15 "Fading down speed" 1 1 0 255 []].
Definition fpar68 : list jparam := [mkJP 1 "Set to Default" 1 0 0 255 []; mkJP 4 "Start up with last known socket status" 1 0 0 255 []; mkJP 9 "Relay delay time" 1 0 0 0 []; mkJP 10 "Led indicator" 1 1 0 2 []].
Definition fpar69 : list jparam := [mkJP 1 "Set to Default" 1 0 0 255 []; mkJP 2 "Feedback time" 1 15 0 255 []; mkJP 3 "Feedback time-out" 1 0 0 255 []; mkJP 4 "feedback beeps per second" 1 2 0 5 []; mkJP 5 "Mode " 1 1 0 255 []; mkJP 6 "RFID circuit start-up time" 1 100 0 255 []].
Definition fpar70 : list jparam := [mkJP 1 "Wind Speed Action Threshold" 1 6 0 30 []; mkJP 2 "Twilight Action Threshold" 1 37 0 100 []].
Definition fpar71 : list jparam := [mkJP 1 "Send double alarms" 1 0 0 255 [(0, "Single Alarm"); (1, "Double Alarm")]].
Definition fpar72 : list jparam := [mkJP 1 "Send double alarms" 1 0 0 255 [(0, "Single Alarm"); (1, "Double Alarm")]].
Definition fpar73 : list jparam := [mkJP 1 "Switch All" 1 255 0 255 [(0, "Disabled"); (1, "Switch on only"); (2, "Switch off only"); (255, "Fully enabled (Default)")]].
Definition fpar74 : list jparam := [mkJP 1 "Basic Set Level" 1 99 0 99 []; mkJP 2 "Configuring the OFF Delay" 1 0 0 127 []].
Definition fpar75 : list jparam := [mkJP 1 "Basic Set Level" 1 99 0 99 []; mkJP 2 "Configuring the OFF Delay" 1 1 0 127 []].
Definition fpar76 : list jparam := [mkJP 1 "Param 1" 1 12 0 255 []; mkJP 2 "Param 2" 1 3 0 255 []; mkJP 3 "Param 3" 1 0 0 255 []; mkJP 4 "Param 4" 1 15 0 255 []; mkJP 5 "Param 5" 1 1 0 255 []; mkJP 6 "Param 6" 1 1 0 255 []; mkJP 7 "Param 7" 1 0 0 255 []; mkJP 8 "Param 8" 1 255 0 255 []; mkJP 9 "Param 9" 1 0 0 255 []; mkJP 10 "Param 10" 1 50 0 255 []; mkJP 11 "Param 11" 1 100 0 255 []; mkJP 12 "Param 12" 1 3 0 255 []].
Definition fpar77 : list jparam := [].
Definition fpar78 : list jparam := [].
Definition fpar79 : list jparam := [mkJP 1 "Delayed OFF time" 1 0 0 255 []; mkJP 2 "Panic ON time" 1 0 0 255 []; mkJP 3 "Panic OFF time" 1 0 0 255 []; mkJP 4 "Basic Set Value" 1 0 0 255 []; mkJP 5 "Power Up State" 1 1 0 255 [(1, "OFF"); (2, "ON"); (3, "Last State")]; mkJP 6 "Panic mode enable" 1 1 0 255 [(1, "OFF"); (2, "ON")]].
Definition fpar80 : list jparam := [mkJP 1 "Delayed OFF time" 1 0 0 255 []].
Definition fpar81 : list jparam := [].
Definition fpar82 : list jparam := [mkJP 1 "Delayed OFF time" 1 0 0 255 []; mkJP 2 "Panic ON time" 1 0 0 255 []; mkJP 3 "Panic OFF time" 1 0 0 255 []; mkJP 4 "Basic Set Value" 1 0 0 255 []; mkJP 5 "Power Up State" 1 1 0 255 [(1, "OFF"); (2, "ON"); (3, "Last State")]; mkJP 6 "Panic mode enable" 1 1 0 255 [(1, "OFF"); (2, "ON")]; mkJP 7 "Dimmer Ramp Time" 1 0 0 255 []; mkJP 8 "Kickstart / Rapid Start" 1 1 0 255 [(1, "OFF"); (2, "ON")]; mkJP 11 "Minimum Dimmer Level" 1 4 4 99 []; mkJP 12 "Maximum Dimmer Level" 1 99 4 99 []].
Definition fpar83 : list jparam := [mkJP 1 "Delayed OFF time" 1 0 0 255 []; mkJP 2 "Panic ON time" 1 0 0 255 []; mkJP 3 "Panic OFF time" 1 0 0 255 []; mkJP 4 "Basic Set Value" 1 0 0 255 []; mkJP 5 "Power Up State" 1 1 0 255 [(1, "OFF"); (2, "ON"); (3, "Last State")]; mkJP 6 "Panic mode enable" 1 1 0 255 [(1, "OFF"); (2, "ON")]; mkJP 7 "Dimmer Ramp Time" 1 0 0 255 []].
Definition fpar84 : list jparam := [].
Definition fpar85 : list jparam := [].
Definition fpar86 : list jparam := [].
Definition fpar87 : list jparam := [].
Definition fpar88 : list jparam := [mkJP 1 "Temperature Report threshold" 2 5 1 100 []; mkJP 2 "Set-point display resolution" 2 5 1 100 []; mkJP 3 "Min Set-point and override limit" 2 12 0 40 []; mkJP 4 "Max Set-point and override limit" 2 28 0 40 []; mkJP 5 "LED Flash period" 4 1 0 65535 []; mkJP 6 "Set-point control function" 1 1 0 1 [(0, "disabled"); (1, "enabled")]; mkJP 7 "Temporarily override scheduler" 1 1 0 1 [(0, "disabled"); (1, "enabled")]; mkJP 8 "Set-point type in Thermostat_Setpoint_Reports" 1 1 1 10 [(1, "Heating"); (2, "Cooling"); (10, "Auto-Changeover")]; mkJP 9 "LED on time" 2 1 1 5 []; mkJP 10 "Number of LED flashes (duration)" 1 5 0 255 []; mkJP 11 "LED color" 1 1 1 2 [(1, "Green"); (2, "Red")]].
Definition fpar89 : list jparam := [mkJP 1 "Temperature Report threshold" 2 5 1 100 []; mkJP 2 "Set-point display resolution" 2 5 1 100 []; mkJP 3 "Min Set-point and override limit" 2 12 0 40 []; mkJP 4 "Max Set-point and override limit" 2 28 0 40 []; mkJP 5 "LED Flash period" 4 1 0 65535 []; mkJP 6 "Set-point control function" 1 1 0 1 [(0, "disabled"); (1, "enabled")]; mkJP 7 "Temporarily override scheduler" 1 1 0 1 [(0, "disabled"); (1, "enabled")]; mkJP 8 "Set-point type in Thermostat_Setpoint_Reports" 1 1 1 10 [(1, "Heating"); (2, "Cooling"); (10, "Auto-Changeover")]; mkJP 9 "LED on time" 2 1 1 5 []; mkJP 10 "Number of LED flashes (duration)" 1 5 0 255 []; mkJP 11 "LED color" 1 1 1 2 [(1, "Green"); (2, "Red")]].
Definition fpar90 : list jparam := [].
Definition fpar91 : list jparam := [].
Definition fpar92 : list jparam := [].
Definition fpar93 : list jparam := [].
Definition fpar94 : list jparam := [mkJP 1 "Watt Meter Report Period" 2 720 0 32767 [(0, "Disable")]; mkJP 2 "KWH Meter Report Period" 2 6 0 32767 [(0, "Disable")]; mkJP 3 "Threshold of current for Load Caution" 2 1300 10 1300 []; mkJP 4 "Threshold of KWh for Load Caution" 2 10000 1 10000 []; mkJP 5 "Restore switch state mode" 1 1 0 255 [(0, "Upon the return of AC power, the switch will remain Off."); (1, "resume previous state"); (2, "Upon the return of AC power, the switch will turn On.")]; mkJP 6 "Mode of switch off function" 1 1 0 255 [(0, "SWITCH OFF commands received are ignored."); (1, "SWITCH OFF commands received are honored.")]; mkJP 7 "LED indication mode" 1 1 0 255 [(1, "The LED follows the state of the switch."); (2, "LED off with load ON"); (3, "Flash mode")]; mkJP 8 "Auto off timer" 2 0 0 255 [(0, "Disable")]; mkJP 9 "RF off command mode" 1 0 0 255 [(0, "When SWITCH ALL OFF is received, the MT02646 turns Off."); (1, "Ignore ALL OFF"); (2, "If ALL OFF is received, turn ON if it is OFF"); (3, "When SWITCH ALL OFF is received, the MT02646 turns On.")]].
Definition fpar95 : list jparam := [mkJP 2 "Basic Set Level" 1 255 0 100 [(0, "Off"); (255, "On")]; mkJP 3 "PIR Sensitivity" 1 70 0 99 [(0, "Disable")]; mkJP 4 "Light Threshold" 1 100 0 100 [(0, "Disable")]; mkJP 5 "Operation Mode" 1 0 0 127 []; mkJP 6 "Multi-Sensor Function Switch" 1 4 0 127 []; mkJP 7 "Customer Function" 1 4 0 127 []; mkJP 8 "PIR Re-Detect Interval Time" 1 3 1 127 []; mkJP 9 "Turn Off Light Time" 1 4 0 127 []; mkJP 10 "Auto Report Battery Time" 1 12 0 127 []; mkJP 11 "Auto Report Door/Window State Time" 1 12 0 127 []; mkJP 12 "Auto Report Illumination Time" 1 12 1 127 []; mkJP 13 "Auto Report Temperature Time" 1 12 1 127 []; mkJP 20 "Auto Report Tick Interval" 1 30 0 255 []; mkJP 21 "Temperature Differential Report" 1 1 0 127 []; mkJP 22 "Illumination Differential Report" 1 1 0 99 []].
Definition fpar96 : list jparam := [mkJP 2 "Basic Set Level" 1 (-1) (-1) 100 []; mkJP 3 "PIR Sensitivity" 1 70 0 99 [(0, "Disable PIR")]; mkJP 4 "Light Threshold" 1 100 0 100 [(0, "Disable (Light OFF)"); (100, "Disable (Light ON)")]; mkJP 5 "Operation Mode" 1 0 0 127 [(10, "Preset: Celsius and LED on = Bits: 00001010 = 10")]; mkJP 6 "Multi-Sensor Function Switch" 1 4 0 127 []; mkJP 7 "Customer Function" 1 4 0 127 [(20, "Preset: PIR Super Sensitivity and Binary Report = Bits: 00010100 = 20")]; mkJP 8 "PIR Re-Detect Interval Time" 1 3 1 127 []; mkJP 9 "Turn Off Light Time" 1 4 0 127 []; mkJP 10 "Auto Report Battery Time" 1 12 0 127 []; mkJP 11 "Auto Report Door/Window State Time" 1 12 0 127 []; mkJP 12 "Auto Report Illumination Time" 1 12 1 127 []; mkJP 13 "Auto Report Temperature Time" 1 12 1 127 []; mkJP 20 "Auto Report Tick Interval" 1 30 0 255 []; mkJP 21 "Temperature Differential Report" 1 1 0 127 []; mkJP 22 "Illumination Differential Report" 1 1 0 99 []].
Definition fpar97 : list jparam := [mkJP 1 "Button 1 and 3 pair mode" 1 1 0 255 [(0, "Separately"); (1, "In pair without double clicks"); (2, "In pair with double clicks")]; mkJP 2 "Button 2 and 4 pair mode" 1 1 0 255 [(0, "Separately"); (1, "In pair without double clicks"); (2, "In pair with double clicks")]; mkJP 11 "Action on group 1" 1 1 0 255 [(0, "Disabled"); (1, "Switch On/Off and Dim (send Basic Set and Switch Multilevel)"); (2, "Switch On/Off only (send Basic Set)"); (3, "Switch all"); (4, "Send Scenes"); (5, "Send Preconfigured Scenes"); (6, "Control devices in proximity")]; mkJP 12 "Action on group 2" 1 1 0 255 [(0, "Disabled"); (1, "Switch On/Off and Dim (send Basic Set and Switch Multilevel)"); (2, "Switch On/Off only (send Basic Set)"); (3, "Switch all"); (4, "Send Scenes"); (5, "Send Preconfigured Scenes"); (6, "Control devices in proximity")]; mkJP 13 "Action on group 3" 1 1 0 255 [(0, "Disabled"); (1, "Switch On/Off and Dim (send Basic Set and Switch Multilevel)"); (2, "Switch On/Off only (send Basic Set)"); (3, "Switch all"); (4, "Send Scenes"); (5, "Send Preconfigured Scenes"); (6, "Control devices in proximity")]; mkJP 14 "Action on group 4" 1 1 0 255 [(0, "Disabled"); (1, "Switch On/Off and Dim (send Basic Set and Switch Multilevel)"); (2, "Switch On/Off only (send Basic Set)"); (3, "Switch all"); (4, "Send Scenes"); (5, "Send Preconfigured Scenes"); (6, "Control devices in proximity")]; mkJP 20 "Typical click timeout" 1 50 0 255 []; mkJP 21 "Send the following Switch All commands" 1 1 0 255 [((-1), "Switch all on and off"); (1, "NO (Normal Open)"); (2, "NC (Normal Close)")]; mkJP 22 "Invert buttons" 1 0 0 255 [(0, "No"); (1, "Yes")]; mkJP 24 "LED confirmation mode" 1 2 0 255 [(0, "No confirmations"); (1, "Confirm button press"); (2, "Confirm button press and delivery")]; mkJP 30 "Send unsolicited Battery Report on Wake Up" 1 0 0 255 [(0, "No"); (1, "To same node as wake up notification"); (2, "Broadcast to neighbours")]].
Definition fpar98 : list jparam := [mkJP 1 "Button 1 and 3 pair mode" 1 1 0 255 [(0, "Separately"); (1, "In pair without double clicks"); (2, "In pair with double clicks")]; mkJP 2 "Button 2 and 4 pair mode" 1 1 0 255 [(0, "Separately"); (1, "In pair without double clicks"); (2, "In pair with double clicks")]; mkJP 11 "Action on group 1" 1 1 0 255 [(0, "Disabled"); (1, "Switch On/Off and Dim (send Basic Set and Switch Multilevel)"); (2, "Switch On/Off only (send Basic Set)"); (3, "Switch all"); (4, "Send Scenes"); (5, "Send Preconfigured Scenes"); (6, "Control devices in proximity"); (7, "Control door lock"); (8, "Central scene to gateway")]; mkJP 12 "Action on group 2" 1 1 0 255 [(0, "Disabled"); (1, "Switch On/Off and Dim (send Basic Set and Switch Multilevel)"); (2, "Switch On/Off only (send Basic Set)"); (3, "Switch all"); (4, "Send Scenes"); (5, "Send Preconfigured Scenes"); (6, "Control devices in proximity"); (7, "Control door lock"); (8, "Central scene to gateway")]; mkJP 13 "Action on group 3" 1 1 0 255 [(0, "Disabled"); (1, "Switch On/Off and Dim (send Basic Set and Switch Multilevel)"); (2, "Switch On/Off only (send Basic Set)"); (3, "Switch all"); (4, "Send Scenes"); (5, "Send Preconfigured Scenes"); (6, "Control devices in proximity"); (7, "Control door lock"); (8, "Central scene to gateway")]; mkJP 14 "Action on group 4" 1 1 0 255 [(0, "Disabled"); (1, "Switch On/Off and Dim (send Basic Set and Switch Multilevel)"); (2, "Switch On/Off only (send Basic Set)"); (3, "Switch all"); (4, "Send Scenes"); (5, "Send Preconfigured Scenes"); (6, "Control devices in proximity"); (7, "Control door lock"); (8, "Central scene to gateway")]; mkJP 21 "Send the following Switch All commands" 1 1 0 255 [(1, "Switch off only"); (2, "Switch on only"); (255, "Switch all on and off")]; mkJP 22 "Invert buttons" 1 0 0 255 [(0, "No"); (1, "Yes")]; mkJP 25 "Block Wake up" 1 0 0 1 [(0, "Wake up is BLOCKED"); (1, "Wake up is POSSIBLE according to Intervall")]; mkJP 30 "Send unsolicited Battery Report on Wake Up" 1 0 0 255 [(0, "No"); (1, "To same node as wake up notification"); (2, "Broadcast to neighbours")]].
Definition fpar99 : list jparam := [mkJP 5 "Operation Mode" 1 0 0 8 [(0, "Fahrenheit"); (8, "Celsius")]; mkJP 6 "Multi Sensor Function Switch" 1 0 0 32 [(0, "Enable"); (32, "Disable")]; mkJP 7 "Customer Function" 1 0 0 16 [(0, "Using Notification Report"); (16, "Using Sensor Binary Report")]; mkJP 7 "Customer Function" 1 0 0 32 [(0, "Enable"); (32, "Disable")]; mkJP 10 "Auto Report Battery Time" 1 12 0 127 []; mkJP 13 "Auto Report Temperature Time" 1 12 0 127 []; mkJP 14 "Auto Report Humidity Time" 1 12 0 127 []; mkJP 20 "Auto Report Tick Interval" 1 30 0 255 []; mkJP 21 "Temperature Differential Report" 1 1 0 127 []; mkJP 23 "Humidity Differential Report" 1 0 0 60 []].
Definition fpar100 : list jparam := [mkJP 1 "Basic Set OFF Level" 1 0 0 255 []; mkJP 2 "Basic Set ON Level" 1 255 0 255 []; mkJP 5 "Disable the Flood function" 1 0 0 255 [(0, "Flood function is enabled"); (1, "Flood function is disabled")]; mkJP 7 "Customer Function" 1 0 0 255 []; mkJP 10 "Auto Report Battery Time" 1 12 0 127 []; mkJP 15 "Auto Report Flood Time" 1 12 0 127 []; mkJP 20 "Auto Report Tick Interval" 1 30 0 255 []].
Definition fpar101 : list jparam := [].
Definition fpar102 : list jparam := [mkJP 7 "Costumer  Function" 4 4 0 65535 []; mkJP 29 "Disable Alarm" 4 0 0 1 []; mkJP 31 "Alarm Duration" 4 6 0 127 []].
Definition fpar103 : list jparam := [].
Definition fpar104 : list jparam := [mkJP 2 "Basic Set Level" 1 255 0 100 [(0, "Off"); (255, "On")]; mkJP 3 "PIR Sensitivity" 1 70 0 99 [(0, "Disable")]; mkJP 4 "Light Threshold" 1 100 0 100 [(0, "Disable")]; mkJP 5 "Operation Mode" 1 0 0 127 [(10, "Preset: Celsius and LED on = Bits: 00001010 = 10")]; mkJP 6 "Multi-Sensor Function Switch" 1 4 0 127 []; mkJP 7 "Customer Function" 1 4 0 127 [(20, "Preset: PIR Super Sensitivity and Binary Report = Bits: 00010100 = 20")]; mkJP 7 "Disable send of BASIC OFF after door closed" 1 1 0 1 [(0, "Enable"); (1, "Disable")]; mkJP 7 "Notification Type" 1 0 0 1 [(0, "Notification Report"); (1, "Sensor Binary Report")]; mkJP 7 "Disable Multi CC in auto report" 1 0 0 1 [(0, "Enable"); (1, "Disable")]; mkJP 7 "Disable to report battery state when the device triggered" 1 0 0 1 [(0, "Enable"); (1, "Disable")]; mkJP 8 "PIR Re-Detect Interval Time" 1 3 1 127 []; mkJP 9 "Turn Off Light Time" 1 4 0 127 []; mkJP 10 "Auto Report Battery Time" 1 12 0 127 []; mkJP 11 "Auto Report Door/Window State Time" 1 12 0 127 []; mkJP 12 "Auto Report Illumination Time" 1 12 1 127 []; mkJP 13 "Auto Report Temperature Time" 1 12 1 127 []; mkJP 20 "Auto Report Tick Interval" 1 30 0 255 []; mkJP 21 "Temperature Differential Report" 1 1 0 127 []; mkJP 22 "Illumination Differential Report" 1 1 0 99 []].
Definition fpar105 : list jparam := [mkJP 2 "Basic Set Level" 1 255 0 100 [(0, "Off"); (255, "On")]; mkJP 2 "" 1 255 0 100 []; mkJP 3 "PIR Sensitivity" 1 70 0 99 [(0, "Disable")]; mkJP 4 "Light Threshold" 1 100 0 100 [(0, "Disable")]; mkJP 5 "Operation Mode" 1 0 0 127 []; mkJP 6 "Multi-Sensor Function Switch" 1 4 0 127 []; mkJP 7 "Customer Function" 1 4 0 127 []; mkJP 7 "Disable send of BASIC OFF after door closed" 1 1 0 1 [(0, "Enable"); (1, "Disable")]; mkJP 7 "Notification Type" 1 0 0 1 [(0, "Notification Report"); (1, "Sensor Binary Report")]; mkJP 7 "Disable Multi CC in auto report" 1 0 0 1 [(0, "Enable"); (1, "Disable")]; mkJP 7 "Disable to report battery state when the device triggered" 1 0 0 1 [(0, "Enable"); (1, "Disable")]; mkJP 8 "PIR Re-Detect Interval Time" 1 3 1 127 []; mkJP 9 "Turn Off Light Time" 1 4 0 127 []; mkJP 10 "Auto Report Battery Time" 1 12 0 127 []; mkJP 11 "Auto Report Door/Window State Time" 1 12 0 127 []; mkJP 12 "Auto Report Illumination Time" 1 12 1 127 []; mkJP 13 "Auto Report Temperature Time" 1 12 1 127 []; mkJP 20 "Auto Report Tick Interval" 1 30 0 255 []; mkJP 21 "Temperature Differential Report" 1 1 0 127 []; mkJP 22 "Illumination Differential Report" 1 1 0 99 []].
Definition fpar106 : list jparam := [mkJP 7 "Customer Function" 1 0 0 0 [(0, "Using Notification Report"); (16, "Using Sensor Binary Report")]; mkJP 29 "Disable Alarm" 1 0 0 0 [(0, "Enable Alarm"); (1, "Disable Alarm")]; mkJP 31 "Alarm Duration" 1 0 0 127 []].
Definition fpar107 : list jparam := [mkJP 1 "Dim level when the light bulb is turned On" 1 0 0 255 [(0, "Full brightness"); (1, "Last setting")]; mkJP 9 "Dimming/Brightening Step Level" 1 50 1 99 []; mkJP 10 "Dimming/Brightening Step Timing" 1 5 1 10 []].
Definition fpar108 : list jparam := [mkJP 1 "Dim level when the bulb is turned on" 1 0 0 1 [(0, "Full brightness"); (1, "Last setting")]; mkJP 9 "Dimming / brightening step level" 1 1 1 99 []; mkJP 10 "Dimming / brightening step timing" 1 3 1 10 []].
Definition fpar109 : list jparam := [mkJP 3 "LED Indicator" 1 0 0 255 [(0, "off/on"); (1, "on/off"); (2, "off")]].
Definition fpar110 : list jparam := [mkJP 4 "Orientation" 1 0 0 255 [(0, "Normal"); (1, "Inverted")]; mkJP 9 "Dim Level Increment" 1 1 0 255 []; mkJP 10 "Step Duration" 1 3 0 255 []].
Definition fpar111 : list jparam := [mkJP 3 "LED Indicator" 1 0 0 255 [(0, "off/on"); (1, "on/off"); (2, "off")]; mkJP 4 "Orientation" 1 0 0 255 [(0, "Normal"); (1, "Inverted")]].
Definition fpar112 : list jparam := [].
Definition fpar113 : list jparam := [mkJP 1 "Send Basic Sets" 1 0 0 255 [(0, "Do not send"); (255, "Send Basic Sets")]; mkJP 2 "Send Binary Reports" 1 0 0 255 [(0, "Send Sensor Binary Reports"); (255, "Send only Notification Reports")]].
Definition fpar114 : list jparam := [mkJP 99 "Toggle sending clear message to group 2" 1 0 0 1 [(0, "Disable sending clear message"); (1, "Send clear message to group 2")]].
Definition fpar115 : list jparam := [].
Definition fpar116 : list jparam := [].
Definition fpar117 : list jparam := [].
Definition fpar118 : list jparam := [].
Definition fpar119 : list jparam := [].
Definition fpar120 : list jparam := [].
Definition fpar121 : list jparam := [].
Definition fpar122 : list jparam := [].
Definition fpar123 : list jparam := [].
Definition fpar124 : list jparam := [mkJP 1 "Toggle LED mode" 1 0 0 1 [(0, "0: LED is on when switch is off"); (1, "1: LED is on when switch is on")]].
Definition fpar125 : list jparam := [mkJP 1 "" 1 0 0 1 [(0, "Power on, LED off"); (1, "Power on, LED on")]; mkJP 8 "" 1 0 0 255 []; mkJP 9 "" 1 0 0 255 []; mkJP 10 "" 1 0 0 255 []; mkJP 11 "" 1 1 0 3 [(0, "Not report (METER_REPORT)"); (1, "Send (METER_REPORT) only"); (2, "Send (SENSOR_MULTI_LEVEL_REPORT) only"); (3, "Send both")]; mkJP 12 "" 1 10 0 255 []].
Definition fpar126 : list jparam := [mkJP 1 "configure LED light state" 1 0 0 1 [(0, "LED off with load on"); (1, "LED on with load on")]; mkJP 2 "Reverse installed direction" 1 0 0 1 [(0, "normal install - up is on"); (1, "invert switch")]].
Definition fpar127 : list jparam := [mkJP 1 "" 1 0 0 1 [(0, "Power on, LED off"); (1, "Power on, LED on")]; mkJP 8 "" 1 0 0 255 []; mkJP 9 "" 1 0 0 255 []; mkJP 10 "" 1 0 0 255 []; mkJP 11 "" 1 1 0 3 [(0, "Not report (METER_REPORT)"); (1, "Send (METER_REPORT) only"); (2, "Send (SENSOR_MULTI_LEVEL_REPORT) only"); (3, "Send both")]; mkJP 12 "" 1 10 0 255 []].
Definition fpar128 : list jparam := [].
Definition fpar129 : list jparam := [].
Definition fpar130 : list jparam := [mkJP 0 "Off time" 1 0 0 255 []].
Definition fpar131 : list jparam := [mkJP 3 "Unsolicited Report Configuration" 1 0 0 1 []].
Definition fpar132 : list jparam := [mkJP 3 "Unsolicited Report Configuration" 1 0 0 255 []].
Definition fpar133 : list jparam := [].
Definition fpar134 : list jparam := [].
Definition fpar135 : list jparam := [].
Definition fpar136 : list jparam := [mkJP 1 "Basic Level Set" 1 99 0 99 [(0, "OFF")]].
Definition fpar137 : list jparam := [].
Definition fpar138 : list jparam := [].
Definition fpar139 : list jparam := [mkJP 1 "Basic Set Command value" 2 255 0 255 []; mkJP 2 "Report time delay group 1" 1 3 3 25 []; mkJP 3 "Remember last status" 1 1 0 255 [(0, "Do not remember"); (1, "Remember")]; mkJP 4 "Switching type" 1 0 0 255 [(0, "Edge Mode"); (1, "Toogle Mode")]; mkJP 5 "Output mode setting" 1 0 0 255 [(0, "Dimming"); (1, "On/Off")]].
Definition fpar140 : list jparam := [mkJP 1 "Basic Set Command value" 2 255 0 255 []; mkJP 2 "Delaying Time to report to Group 1" 1 3 3 25 []; mkJP 3 "Remember the last status" 1 1 0 1 []; mkJP 4 "Output mode setting: Dimming, On/Off" 1 0 0 1 []].
Definition fpar141 : list jparam := [].
Definition fpar142 : list jparam := [mkJP 1 "True Period" 1 10 0 254 []; mkJP 2 "Send Out Basic Command" 1 0 0 255 [(0, "Disabled"); (1, "Enabled")]; mkJP 3 "Meter Report Period" 2 3 0 3240 []].
Definition fpar143 : list jparam := [mkJP 1 "True Period" 1 10 0 120 []; mkJP 2 "Send Basic Command to Group 2" 1 0 0 1 [(0, "Disabled"); (1, "Enabled")]; mkJP 3 "Meter Report Period (W)" 2 3 0 3240 []; mkJP 4 "Meter Report Period (kWh)" 2 1440 0 10080 []].
Definition fpar144 : list jparam := [mkJP 1 "Basic Set Command value" 2 255 0 255 []; mkJP 2 "Report time delay group 1" 1 3 3 25 []; mkJP 3 "Remember last status" 1 1 0 255 [(0, "Do not remember"); (1, "Remember")]; mkJP 4 "Switching type" 1 0 0 255 [(0, "Edge Mode"); (1, "Toogle Mode")]].
Definition fpar145 : list jparam := [].
Definition fpar146 : list jparam := [].
Definition fpar147 : list jparam := [mkJP 1 "Command value" 2 255 1 99 [(0, "No Basic Set Command will be sent"); (255, "Basic Set Command ON will be sent")]; mkJP 2 "Delaying time" 1 3 3 25 []; mkJP 3 "Remember status" 1 1 0 1 [(0, "Do not remember"); (1, "Remember")]; mkJP 4 "Interval for wattage auto report" 2 1 1 32767 [(0, "Does not report automatically")]; mkJP 5 "Interval for kW*h auto report" 2 60 1 32767 [(0, "Does not report automatically")]; mkJP 6 "Auto report load surpasses value" 2 0 1 2500 [(0, "Does not report automatically")]; mkJP 7 "Auto report change percentage" 1 0 1 100 [(0, "Does not report automatically")]].
Definition fpar148 : list jparam := [mkJP 1 "Basic Set Level" 1 99 0 99 []; mkJP 2 "Amount Of Delay" 1 1 0 127 []].
Definition fpar149 : list jparam := [mkJP 1 "Basic Set Level" 2 99 0 99 []; mkJP 2 "Configuring the OFF Delay" 1 0 0 127 []; mkJP 3 "Staying Awake (for testing)" 1 0 0 1 []].
Definition fpar150 : list jparam := [mkJP 1 "Basic Set Level" 1 99 0 99 []; mkJP 2 "Sensor Detecting Function" 1 1 0 255 [(1, "Group 1 Enabled / Group 2 Enabled"); (2, "Group 1 Enabled / Group 2 Disabled"); (3, "Group 1 Disabled / Group 2 Disabled")]; mkJP 3 "Sensitivity Level" 1 6 1 10 []; mkJP 4 "Re-trigger Interval Setting" 1 180 5 255 []; mkJP 5 "LUX Level" 1 10 1 100 []; mkJP 6 "On-Off Duration" 1 15 5 255 []].
Definition fpar151 : list jparam := [].
Definition fpar152 : list jparam := [].
Definition fpar153 : list jparam := [mkJP 1 "Basic Set Level" 1 99 0 99 []; mkJP 2 "Configuring the OFF Delay" 1 1 0 127 []].
Definition fpar154 : list jparam := [mkJP 1 "Phase level on command" 1 0 0 255 [(0, "Set OFF"); (1, "Set ON"); (9, "Set LAST Level")]; mkJP 2 "Enable/Disable Sleeping" 1 1 0 255 [(0, "Disabled"); (1, "Enabled")]].
Definition fpar155 : list jparam := [mkJP 1 "Basic Set Level" 1 255 0 99 []; mkJP 2 "Enable/Disable Detecting" 1 1 0 255 [(0, "Disabled"); (1, "Enabled")]; mkJP 3 "Sensitivity Level" 1 6 1 10 []; mkJP 4 "Re-trigger Interval" 2 5 5 3600 []; mkJP 5 "Lux Level" 1 10 1 100 []; mkJP 6 "On-Off Duration" 1 5 5 255 []].
Definition fpar156 : list jparam := [mkJP 1 "Basic Level Set" 1 99 0 99 []].
Definition fpar157 : list jparam := [mkJP 1 "Basic Set Level" 1 99 0 99 [(0, "Disable")]; mkJP 2 "Temperature Trigger ON value" 1 99 (-20) 50 [(99, "Disable")]; mkJP 3 "Temperature Trigger OFF value" 1 99 (-20) 50 [(99, "Disable")]; mkJP 4 "Humidity Trigger ON value" 1 99 20 90 [(99, "Disable")]; mkJP 5 "Humidity Trigger OFF value" 1 99 20 99 [(99, "Disable")]; mkJP 6 "Auto report time" 2 0 0 1439 [(0, "Disable")]; mkJP 7 "Auto report temperature" 1 0 0 70 [(0, "Disable")]; mkJP 8 "Auto report humidity" 1 0 5 70 [(0, "Disable")]].
Definition fpar158 : list jparam := [mkJP 1 "Basic Set Level" 1 99 0 99 []; mkJP 2 "Lux Trigger On Value" 2 300 0 1000 []; mkJP 3 "Lux Trigger Off Value" 2 500 0 1000 []; mkJP 4 "Lux Trigger Off Timer Value." 2 0 0 480 []; mkJP 5 "Auto Report Time Interval" 2 0 0 1439 []; mkJP 6 "Auto Report Lux Interval" 2 0 0 1000 []].
Definition fpar159 : list jparam := [].
Definition fpar160 : list jparam := [mkJP 3 "Night Light" 1 1 0 255 [(0, "No"); (1, "Yes")]].
Definition fpar161 : list jparam := [].
Definition fpar162 : list jparam := [mkJP 3 "Night Light" 1 1 0 255 [(0, "No"); (1, "Yes")]; mkJP 4 "Invert Switch" 1 0 0 255 [(0, "No"); (1, "Yes")]; mkJP 29 "Load Sense" 1 0 0 255 [(0, "Disable"); (1, "Enable")]].
Definition fpar163 : list jparam := [mkJP 3 "Night Light" 1 1 0 255 [(0, "On when load is on"); (1, "Off when load is on")]; mkJP 4 "Invert Switch" 1 0 0 255 [(0, "Top-ON, Bottom-OFF"); (1, "Bottom--ON, Top-OFF")]].
Definition fpar164 : list jparam := [].
Definition fpar165 : list jparam := [].
Definition fpar166 : list jparam := [].
Definition fpar167 : list jparam := [mkJP 1 "IN1 Alarm Cancellation Delay" 2 0 0 65535 []; mkJP 2 "IN2 Alarm Cancellation Delay" 2 0 0 65535 []; mkJP 3 "Type of input no. 1" 1 1 0 255 [(0, "NO (Normal Open)"); (1, "NC (Normal Close)"); (2, "MONOSTABLE"); (3, "BISTABLE")]; mkJP 4 "Type of input no. 2" 1 1 0 255 [(0, "NO (Normal Open)"); (1, "NC (Normal Close)"); (2, "MONOSTABLE"); (3, "BISTABLE")]; mkJP 5 "Type of transmitted control frame for association group 1" 1 255 0 255 [(0, "ALARM GENERIC"); (1, "ALARM SMOKE"); (2, "ALARM CO"); (3, "ALARM CO2"); (4, "ALARM HEAT"); (5, "ALARM WATER"); (255, "BASIC_SET")]; mkJP 6 "Type of transmitted control frame for association group 2" 1 255 0 255 [(0, "ALARM GENERIC"); (1, "ALARM SMOKE"); (2, "ALARM CO"); (3, "ALARM CO2"); (4, "ALARM HEAT"); (5, "ALARM WATER"); (255, "BASIC_SET")]; mkJP 7 "Forced Level of Dimming group 1" 1 255 1 255 []; mkJP 8 "Forced Level of Dimming group 2" 1 255 1 255 []; mkJP 9 "Deactivate transmission of frame canceling alarm" 1 0 0 255 [(0, "Groups 1 and 2 sent"); (1, "Group 1 sent, Group 2 not sent."); (2, "Group 1 not sent, Group 2 sent.")]; mkJP 10 "Interval between successive readings of temperature sensors" 1 20 1 255 []; mkJP 11 "Interval betw. forcing to send report concerning the temp." 1 200 1 255 []; mkJP 12 "Insensitiveness to temperature changes." 1 8 0 255 []; mkJP 13 "Transmitting the alarm or control frame broadcast mode" 1 0 0 255 [(0, "IN1 and IN2 Broadcast inactive"); (1, "IN1 broadcast mode active, Sensor 2 broadcast mode inactive"); (2, "IN1 broadcast mode inactive, Sensor 2 broadcast mode active"); (3, "INI and IN2 broadcast mode active")]; mkJP 14 "Scene activation" 1 0 0 255 [(0, "Scenes disabled"); (1, "Scenes enabled")]].
Definition fpar168 : list jparam := [mkJP 1 "Device Orientation" 1 0 0 3 [(0, "Default Orientation"); (1, "180° rotation"); (2, "90° clockwise rotation"); (3, "90° counter-clockwise rotation")]; mkJP 2 "Buzzer - acoustic signal settings" 1 1 0 1 [(0, "Gestures detection is not signalled"); (1, "Gestures detection is signalled")]; mkJP 3 " LED diode - visual indicator settings" 1 0 0 1 [(0, "Gestures detection is not indicated"); (1, " Gestures detection is indicated")]; mkJP 4 "Buzzer - signalling result of gesture recognition" 1 3 1 3 [(1, "Only successful recognition is signalled"); (2, "Only failed recognition is signalled"); (3, "Successful and failed recognition is signalled")]; mkJP 5 "Powering mode - interval of updating the current mode" 2 4 0 1080 [(0, "Powering mode is not updated"); (1, "Time interval (in minutes)")]; mkJP 6 "Power saving mode (battery mode)" 1 0 0 2 [(0, "Standby mode"); (1, "Simple mode"); (2, "Swipe does not enter power saving mode")]; mkJP 7 "Hold gesture to enter the menu" 1 0 0 1 [(0, "Hold gesture to enter the menu enabled"); (1, "Hold gesture to enter the menu disabled")]; mkJP 10 "Scenes sent to the controller" 1 15 1 63 [(1, "Scenes for flick UP gesture enabled"); (2, "Scenes for flick DOWN gesture enabled"); (4, "Scenes for flick LEFT gesture enabled"); (8, "Scenes for flick RIGHT gesture enabled"); (16, "Scenes for clockwise circular gesture enabled"); (32, "Scenes for counter-clockwise circular gesture enabled"); (63, "All commands enabled")]; mkJP 11 "Associations in Z-Wave network security mode" 1 31 1 31 [(1, "2nd group ”Flick UP” sent as secure"); (2, "3rd group ”Flick DOWN” sent as secure"); (4, "4th group ""Flick LEFT” sent as secure"); (8, "5th group ""Flick RIGHT” sent as secure"); (16, "6th group ""Circular AirWheel” sent as secure")]; mkJP 12 "Control mode of 2nd - 5th ""Flick UP/DOWN/LEFT/RIGHT” association groups and scenes" 1 15 1 15 [(1, "Toggle Mode enabled for 2nd association group"); (2, "Toggle Mode enabled for 3rd association group"); (4, "Toggle Mode enabled for 4th association group"); (8, "Toggle Mode enabled for 5th association group")]; mkJP 13 "Rate of smooth level control" 2 255 0 255 []; mkJP 20 "SWITCH ON control frame value for FLICK UP gesture" 2 255 0 255 []; mkJP 21 "SWITCH OFF control frame value for FLICK UP gesture" 2 255 0 255 []; mkJP 22 "SWITCH ON control frame value for FLICK DOWN gesture" 2 255 0 255 []; mkJP 23 "SWITCH OFF control frame value for FLICK DOWN gesture" 2 255 0 255 []; mkJP 24 "SWITCH ON control frame value for FLICK LEFT gesture" 2 255 0 255 []; mkJP 25 "SWITCH OFF control frame value for FLICK LEFT gesture" 2 255 0 255 []; mkJP 26 "SWITCH ON control frame value for FLICK RIGHT gesture" 2 255 0 255 []; mkJP 27 "SWITCH OFF control frame value for FLICK RIGHT gesture" 2 255 0 255 []; mkJP 30 "Sequence learning mode" 1 0 0 6 []; mkJP 31 "1st gestures sequence (SLOT 1)" 2 0 0 1076 []; mkJP 32 "2nd gestures sequence (SLOT 2)" 2 0 0 1076 []; mkJP 33 "3rd gestures sequence (SLOT 3)" 2 0 0 1076 []; mkJP 34 "4th gestures sequence (SLOT 4)" 2 0 0 1076 []; mkJP 35 "5th gestures sequence (SLOT 5)" 2 0 0 1076 []; mkJP 36 "6th gestures sequence (SLOT 6)" 2 0 0 1076 []].
Definition fpar169 : list jparam := [mkJP 1 "Enable/Disable ALL ON/OFF" 1 255 0 255 [((-1), "ALL ON active / ALL OFF active"); (0, "ALL ON disabled / ALL OFF disabled"); (1, "ALL ON disabled / ALL OFF active"); (2, "ALL ON active / ALL OFF disabled")]; mkJP 6 "Separation of association sending (key 1)" 1 0 0 255 [(0, "Map status to all devices in group 1"); (1, "Map OFF status to all devices in group 1, Double click on key 1 will s"); (2, "Map OFF status to all devices in group 1, Double click on key 1 will s")]; mkJP 7 "Control key #2 behaviour" 1 1 0 255 [(0, "Device status is not checked"); (1, "Device status is checked")]; mkJP 8 "Dimming step at automatic control" 1 1 1 99 []; mkJP 9 "Time of MANUALLY moving between the extreme dimming values" 1 5 1 255 []; mkJP 10 "Time of AUTOMATIC moving between the extreme dimming values" 1 1 0 255 []; mkJP 11 "Dimming step at manual control" 1 1 1 99 []; mkJP 12 "Maximum dimmer level control" 1 2 2 99 []; mkJP 13 "Minimum dimmer level control" 1 0 0 255 []; mkJP 14 "Inputs Button/Switch configuration" 1 0 0 255 [(0, "Mono-stable input (button)"); (1, "Bi-stable input (switch)")]; mkJP 15 "Parm 15" 1 0 0 255 [(0, "Disable double click"); (1, "Enable double click")]; mkJP 16 "Saving state before power failure" 1 1 0 255 [(0, "State NOT saved at power failure, all outputs are set to OFF upon powe"); (1, "State saved at power failure, all outputs are set to previous state up")]; mkJP 17 "3-way switch" 1 0 0 255 [(0, "Disable"); (1, "Enable")]; mkJP 18 "Synchronizing light level for associated devices" 1 0 0 255 [(0, "Disable"); (1, "Enable")]; mkJP 19 "Change [On-Off] bi-stable keys" 1 0 0 255 [(0, "Device changes status on key status change"); (1, "Device status depends on key status; ON when the key is ON, OFF when t")]; mkJP 20 "Parm 20" 1 110 100 170 []; mkJP 30 "Relay 1: Response to General Alarm" 1 3 0 255 [(0, "DEACTIVATION - no response to alarm frames"); (1, "ALARM RELAY ON - relay will turn ON upon receipt of alarm frame"); (2, "ALARM RELAY OFF - relay will turn OFF upon receipt of alarm frame"); (3, "ALARM FLASHING - relay will turn ON and OFF periodically (see param.39")]; mkJP 39 "ALARM FLASHING alarm time" 2 600 0 65535 []].
Definition fpar170 : list jparam := [mkJP 1 "Enable/Disable ALL ON/OFF" 1 255 0 255 [((-1), "ALL ON active / ALL OFF active"); (0, "ALL ON disabled / ALL OFF disabled"); (1, "ALL ON disabled / ALL OFF active"); (2, "ALL ON active / ALL OFF disabled")]; mkJP 6 "Separation of association sending (key 1)" 1 0 0 255 [(0, "Map status to all devices in group 1"); (1, "Map OFF status to all devices in group 1, Double click on key 1 will s"); (2, "Map OFF status to all devices in group 1, Double click on key 1 will s")]; mkJP 7 "Control key #2 behaviour" 1 1 0 255 [(0, "Status not checked"); (1, "Status checked")]; mkJP 8 "Dimming step at automatic control" 1 1 1 99 []; mkJP 9 "Time of MANUALLY moving between the extreme dimming values" 1 5 1 255 []; mkJP 10 "Time of AUTOMATIC moving between the extreme dimming values" 1 1 0 255 []; mkJP 11 "Dimming step at manual control" 1 1 1 99 []; mkJP 12 "Maximum dimmer level control" 1 2 2 99 []; mkJP 13 "Minimum dimmer level control" 1 0 0 255 []; mkJP 14 "Inputs Button/Switch configuration" 1 0 0 255 [(0, "Mono-stable input (button)"); (1, "Bi-stable input (switch)")]; mkJP 15 "Parm 15" 1 0 0 255 [(0, "Disable double click"); (1, "Enable double click")]; mkJP 16 "Saving state before power failure" 1 1 0 255 [(0, "State NOT saved at power failure"); (1, "State saved at power failure")]; mkJP 17 "3-way switch" 1 0 0 255 [(0, "Disable"); (1, "Enable")]; mkJP 18 "Synchronizing light level for associated devices" 1 0 0 255 [(0, "Disable"); (1, "Enable")]; mkJP 19 "Change [On-Off] bi-stable keys" 1 0 0 255 [(0, "Device changes status on key status change"); (1, "Device status depends on key status; ON when the key is ON, OFF when t")]; mkJP 20 "Parm 20" 1 110 100 170 []; mkJP 30 "Relay 1: Response to General Alarm" 1 3 0 255 [(0, "DEACTIVATION - no response to alarm frames"); (1, "ALARM RELAY ON - relay will turn ON upon receipt of alarm frame"); (2, "ALARM RELAY OFF - relay will turn OFF upon receipt of alarm frame"); (3, "ALARM FLASHING - relay will turn ON and OFF periodically (see param.39")]; mkJP 39 "ALARM FLASHING alarm time" 2 600 0 65535 []; mkJP 40 "Updating the dimming level without switch." 1 99 0 255 []; mkJP 41 "Scene activation functionality" 1 0 0 255 [(0, "Scene functionality deactivated"); (1, "Scene functionality activated")]].
Definition fpar171 : list jparam := [mkJP 1 "Enable/Disable ALL ON/OFF" 1 255 0 255 [(0, "ALL ON disabled / ALL OFF disabled"); (1, "ALL ON disabled / ALL OFF active"); (2, "ALL ON active / ALL OFF disabled"); (255, "ALL ON active / ALL OFF active")]; mkJP 6 "Separation of association sending (key 1)" 1 0 0 255 [(0, "Map status to all devices in group 1"); (1, "Map OFF status to all devices in group 1 - last state"); (2, "Map OFF status to all devices in group 1 - 100% state")]; mkJP 7 "Control key #2 behaviour" 1 1 0 255 [(0, "Device status is not checked"); (1, "Device status is checked")]; mkJP 8 "Dimming step at automatic control" 1 1 1 99 []; mkJP 9 "Time of MANUALLY moving between the extreme dimming values" 1 5 1 255 []; mkJP 10 "Time of AUTOMATIC moving between the extreme dimming values" 1 1 0 255 []; mkJP 11 "Dimming step at manual control" 1 1 1 99 []; mkJP 12 "Maximum dimmer level control" 1 99 2 99 []; mkJP 13 "Minimum dimmer level control" 1 2 1 98 []; mkJP 14 "Inputs Button/Switch configuration" 1 0 0 255 [(0, "Mono-stable input (button)"); (1, "Bi-stable input (switch)"); (2, "Roller blind switch (UP / DOWN)")]; mkJP 15 "Parm 15" 1 1 0 255 [(0, "Disable double click"); (1, "Enable double click")]; mkJP 16 "Saving state before power failure" 1 1 0 255 [(0, "State NOT saved at power failure"); (1, "State saved at power failure.")]; mkJP 17 "3-way switch" 1 0 0 255 [(0, "Disable"); (1, "Enable")]; mkJP 18 "Synchronizing light level for associated devices" 1 0 0 255 [(0, "Disable"); (1, "Enable")]; mkJP 19 "Change [On-Off] bi-stable keys" 1 0 0 255 [(0, "[On / Off] Device changes status on key status change"); (1, "Device status depends on key status.")]; mkJP 20 "Minimum level of the Dimmer" 1 110 100 170 []; mkJP 30 "Relay 1: Response to General Alarm" 1 3 0 255 [(0, "Deactivation"); (1, "Alarm Dimmer ON"); (2, "Alarm Dimmer OFF"); (3, "Alarm Flashing")]; mkJP 39 "ALARM FLASHING alarm time" 2 600 0 65535 []; mkJP 40 "Updating the dimming level without switch." 1 99 1 99 []; mkJP 41 "Scene activation functionality" 1 0 0 255 [(0, "Scene functionality deactivated"); (1, "Scene functionality activated")]].
Definition fpar172 : list jparam := [mkJP 1 "Minimum brightness level" 1 1 1 98 []; mkJP 2 "Maximum brightness level" 1 99 1 99 []; mkJP 3 "Incandescence level of dimmable compact fluorescent lamps" 1 1 1 99 []; mkJP 4 "Incandescence time of dimmable compact fluorescent lamps" 2 0 0 255 []; mkJP 5 "Dimming Step at Automatic Control" 1 1 1 99 []; mkJP 6 "Dimming Step Timing at Automatic Control" 2 1 1 255 []; mkJP 7 "Dimming Step at Manual Control" 1 1 1 99 []; mkJP 8 "Dimming Step Timing at Manual Control" 2 5 1 255 []; mkJP 9 "Saving state before power failure" 1 1 0 255 [(0, "State NOT saved at power failure, all outputs are set to OFF upon powe"); (1, "State saved at power failure, all outputs are set to previous state up")]; mkJP 10 "Timer functionality (auto - off). 0 disables the function" 2 0 0 32767 []; mkJP 11 "ALL ON/ALL OFF function" 2 255 0 65535 [(0, "ALL ON not active, ALL OFF not active"); (1, "ALL ON not active, ALL OFF active"); (2, "ALL ON active, ALL OFF not active"); (255, "ALL ON active, ALL OFF active")]; mkJP 13 "Force auto-calibration" 1 0 0 255 [(0, "readout"); (1, "force auto-calibration of the load without Fibaro Bypass"); (2, "force auto-calibration of the load with Fibaro Bypass")]; mkJP 14 "Auto-calibration status (read-only parameter)" 1 0 0 1 [(0, "calibration procedure not performed or Dimmer operates on manual setti"); (1, "Dimmer operates on auto-calibration settings")]; mkJP 15 "Burnt out bulb detection" 1 30 0 99 []; mkJP 16 "Time delay of a burnt out bulb (parameter 15) or overload (parameter 39) detection" 2 5 0 255 []; mkJP 19 "Forced switch on brightness level" 1 0 0 99 []; mkJP 20 "Inputs Button/Switch configuration" 1 0 0 255 [(0, "Mono-stable input (button)"); (1, "Bi-stable input (switch)"); (2, "Roller blind switch (UP / DOWN)")]; mkJP 21 "Value sent to associated devices on single click" 1 0 0 255 [(0, "0xFF value is sent, which will set associated devices to their last sa"); (1, "current Dimmer 2 state is sent, which will synchronize brightness leve")]; mkJP 22 "Change [On-Off] bi-stable keys" 1 0 0 255 [(0, "Device changes status on key status change"); (1, "Device status depends on key status; ON when the key is ON, OFF when t")]; mkJP 23 "Double click option" 1 1 0 255 [(0, "Disable double click"); (1, "Enable double click")]; mkJP 24 "Command frames sent in 2nd and 3rd association groups (S1 associations)" 1 0 0 255 [(0, "all actions send to association groups"); (1, "do not send when switching ON (single click)"); (2, "do not send when switching OFF (single click)"); (4, "do not send when changing dimming level (holding and releasing)"); (8, "do not send on double click"); (16, "send 0xFF value on double click")]; mkJP 25 "Command frames sent in 4th and 5th association groups (S2associations)" 1 0 0 255 [(0, "all actions send to association groups"); (1, "do not send when switching ON (single click)"); (2, "do not send when switching OFF (single click)"); (4, "do not send when changing dimming level (holding and releasing)"); (8, "do not send on double click"); (16, "send 0xFF value on double click")]; mkJP 26 "The function of 3-way switch" 1 0 0 255 [(0, "3-way switch function for S2 disabled"); (1, "3-way switch function for S2 enabled")]; mkJP 27 "Associations in Z-Wave network security mode" 1 15 0 255 [(0, "all groups (II-V) sent as non-secure"); (1, "2nd group sent as secure"); (2, "3rd group sent as secure"); (4, "4th group sent as secure"); (8, "5th group sent as secure"); (15, "all groups (II-V) sent as secure")]; mkJP 28 "Scene activation functionality" 1 0 0 255 [(0, "Scene functionality deactivated"); (1, "Scene functionality activated")]; mkJP 29 "Switch functionality of S1 and S2" 1 0 0 255 [(0, "standard mode"); (1, "S1 operates as S2, S2 operates as S1")]; mkJP 30 "Load control mode" 1 2 0 255 [(0, "forced leading edge control"); (1, "forced trailing edge control"); (2, "control mode selected automatically (based on auto-calibration)")]; mkJP 31 "Load control mode recognized during auto-calibration" 1 0 0 1 [(0, "leading edge control"); (1, "trailing edge control")]; mkJP 32 "On/Off mode" 1 2 0 255 [(0, "on/off mode disabled (dimming is possible)"); (1, "on/off mode enabled (dimming is not possible)"); (2, "mode selected automatically")]; mkJP 33 "Dimmability of the load (read only)" 1 0 0 1 [(0, "Load recognized as dimmable"); (1, "Load recognized as non-dimmable")]; mkJP 34 "Soft-Start functionality" 1 1 0 255 [(0, "no soft-start"); (1, "short soft-start (0,1s)"); (2, "long soft-start (0,5s)")]; mkJP 35 "Auto-calibration after power on" 1 1 0 255 [(0, "No auto-calibration of the load after power on"); (1, "Auto-calibration performed after first power on"); (2, "Auto-calibration performed after each power on"); (3, "Auto-calibration performed after first power on or after each LOAD ERR"); (4, "Auto-calibration performed after each power on or after each LOAD ERRO")]; mkJP 37 "Behaviour of the Dimmer after overload or surge" 1 1 0 255 [(0, "device permanently disabled until re-enabling by comand or push-button"); (1, "three attempts to turn on the load")]; mkJP 39 "Power limit - OVERLOAD" 2 250 0 250 []; mkJP 40 "General Purpose Alarm" 1 3 0 255 [(0, "No reaction"); (1, "Turn on the load"); (2, "Turn off the load"); (3, "Load blinking")]; mkJP 41 "Water Flooding Alarm" 1 2 0 255 [(0, "No reaction"); (1, "Turn on the load"); (2, "Turn off the load"); (3, "Load blinking")]; mkJP 42 "Smoke, CO or CO2 Alarm" 1 3 0 255 [(0, "No reaction"); (1, "Turn on the load"); (2, "Turn off the load"); (3, "Load blinking")]; mkJP 43 "Temperature Alarm" 1 1 0 255 [(0, "No reaction"); (1, "Turn on the load"); (2, "Turn off the load"); (3, "Load blinking")]; mkJP 44 "Time of alarm state" 2 600 1 32767 []; mkJP 45 "OVERLOAD alarm report" 1 1 0 255 [(0, "No reaction"); (1, "Send an alarm frame")]; mkJP 46 "LOAD ERROR alarm report" 1 1 0 255 [(0, "No reaction"); (1, "Send an alarm frame")]; mkJP 47 "OVERCURRENT alarm report" 1 1 0 255 [(0, "No reaction"); (1, "Send an alarm frame")]; mkJP 48 "SURGE alarm report" 1 1 0 255 [(0, "No reaction"); (1, "Send an alarm frame")]; mkJP 49 "OVERHEAT (critical temperature) and VOLTAGE DROP (low voltage) alarm report" 1 1 0 255 [(0, "No reaction"); (1, "Send an alarm frame")]; mkJP 50 "Active power reports" 1 10 0 100 []; mkJP 52 "Periodic active power and energy reports" 2 3600 0 32767 []; mkJP 53 "Energy reports" 2 10 1 255 []; mkJP 54 "Self-measurement" 1 0 0 255 [(0, "Self-measurement inactive"); (1, "Self-measurement active")]; mkJP 58 "Method of calculating the active power" 1 0 0 255 [(0, "measurement based on the standard algorithm"); (1, "approximation based on the calibration data"); (2, "approximation based on the control angle")]; mkJP 59 "Approximated power at the maximum brightness level" 2 0 0 500 []].
Definition fpar173 : list jparam := [mkJP 1 "Alarm Cancellation Delay" 2 0 0 3600 []; mkJP 2 "Acoustic and visual signals On / Off in case of flooding" 1 3 0 255 [(0, "Acoustic and visual alarms inactive"); (1, "Acoustic alarm inactive, visual alarm active"); (2, "Acoustic alarm active, visual alarm inactive"); (3, "Acoustic and visual alarms active")]; mkJP 5 "Type of alarm frame sent to 1-st association group (FLOOD)" 1 (-127) 0 255 [((-127), "BASIC_SET"); (0, "ALARM WATER")]; mkJP 7 "Forced Level of Dimming group 1" 1 255 1 255 []; mkJP 9 "Alarm cancelling or turning a device off (Basic) command frame deactivation" 1 0 0 255 [(0, "Alarm (flooding) cancellation inactive"); (1, "Alarm (flooding) cancellation active")]; mkJP 10 "Interval between successive readings of temperature sensors" 2 300 1 32767 []; mkJP 12 "Insensitiveness to temperature changes." 2 50 0 1000 []; mkJP 13 "Alarm BROADCAST" 1 0 0 255 [(0, "Broadcast inactive"); (1, "Flood broadcast mode active, Tamper broadcast mode inactive"); (2, "Tamper broadcast mode inactive, Tamper broadcast mode active"); (3, "Flood and Tamper broadcast mode active")]; mkJP 50 "Low temperature alarm threshold" 2 1500 (-10000) 10000 []; mkJP 51 "High temperature alarm threshold" 2 3500 (-10000) 10000 []; mkJP 61 "Low temperature alarm indicator colour" 4 255 0 16777215 []; mkJP 62 "High temperature alarm indicator colour" 4 16711680 0 16777215 []; mkJP 63 "Managing a LED indicator under standard operation" 1 2 0 255 [(0, "LED indicator doesn’t indicate the temperature"); (1, "LED indicator indicates the temperature (blink) every Temperature Meas"); (2, "LED indicator indicates the temperature continuously, only in constant")]; mkJP 73 "Temperature measurement compensation" 2 0 (-10000) 10000 []; mkJP 74 "Alarm frame sent to 2-nd Association Group activation" 1 2 0 255 [(0, "Tamper alarms inactive"); (1, "Button tamper alarm active"); (2, "Movement tamper alarm active"); (3, "Button and movement tampers alarm active")]; mkJP 75 "Visual and audible alarms duration" 2 0 0 65535 []; mkJP 76 "Visual and audible alarms duration" 2 0 0 65535 []; mkJP 77 "Flood sensor functionality turned off" 1 0 0 255 [(0, "Default flood sensor operation (flood detection, reactions)"); (1, "Built in flood sensor TURNED OFF (doesn’t change its state in the main")]].
Definition fpar174 : list jparam := [mkJP 1 "Alarm Cancellation Delay" 2 0 0 3600 []; mkJP 2 "Acoustic and visual signals On / Off in case of flooding" 1 3 0 255 [(0, "Acoustic and visual alarms inactive"); (1, "Acoustic alarm inactive, visual alarm active"); (2, "Acoustic alarm active, visual alarm inactive"); (3, "Acoustic and visual alarms active")]; mkJP 5 "Type of alarm frame sent to 1-st association group (FLOOD)" 1 (-127) 0 255 [((-127), "BASIC_SET"); (0, "ALARM WATER")]; mkJP 7 "Forced Level of Dimming group 1" 1 255 1 255 []; mkJP 9 "Alarm cancelling or turning a device off" 1 0 0 255 [(0, "Alarm (flooding) cancellation inactive"); (1, "Alarm (flooding) cancellation active")]; mkJP 10 "Interval between successive readings of temperature sensors" 2 300 1 32767 []; mkJP 12 "Insensitiveness to temperature changes." 2 50 0 1000 []; mkJP 13 "Alarm BROADCAST" 1 0 0 255 [(0, "Broadcast inactive"); (1, "Flood broadcast mode active, Tamper broadcast mode inactive"); (2, "Tamper broadcast mode inactive, Tamper broadcast mode active"); (3, "Flood and Tamper broadcast mode active")]; mkJP 50 "Low temperature alarm threshold" 2 1500 (-10000) 10000 []; mkJP 51 "High temperature alarm threshold" 2 3500 (-10000) 10000 []; mkJP 61 "Low temperature alarm indicator colour" 4 255 0 16777215 []; mkJP 62 "High temperature alarm indicator colour" 4 16711680 0 16777215 []; mkJP 63 "Managing a LED indicator under standard operation" 1 2 0 255 [(0, "LED indicator doesn’t indicate the temperature"); (1, "LED indicator indicates the temperature (blink)"); (2, "LED indicator indicates the temperature continuously")]; mkJP 73 "Temperature measurement compensation" 2 0 (-10000) 10000 []; mkJP 74 "Alarm frame sent to 2-nd Association Group activation" 1 2 0 255 [(0, "Tamper alarms inactive"); (1, "Button tamper alarm active"); (2, "Movement tamper alarm active"); (3, "Button and movement tampers alarm active")]; mkJP 75 "Visual and audible alarms duration" 2 0 0 65535 []; mkJP 76 "Visual and audible alarms duration" 2 0 0 65535 []; mkJP 77 "Flood sensor functionality turned off" 1 0 0 255 [(0, "Default flood sensor operation (flood detection, reactions)"); (1, "Built in flood sensor TURNED OFF")]].
Definition fpar175 : list jparam := [mkJP 1 "Alarm Cancellation Delay" 2 0 0 3600 []; mkJP 2 "Acoustic and visual signals On / Off in case of flooding" 1 3 0 255 [(0, "Acoustic and visual alarms inactive"); (1, "Acoustic alarm inactive, visual alarm active"); (2, "Acoustic alarm active, visual alarm inactive"); (3, "Acoustic and visual alarms active")]; mkJP 5 "Type of alarm frame sent to 1-st association group (FLOOD)" 1 (-127) 0 255 [((-127), "BASIC_SET"); (0, "ALARM WATER")]; mkJP 7 "Forced Level of Dimming group 1" 1 255 1 255 []; mkJP 9 "Alarm cancelling or turning a device off" 1 0 0 255 [(0, "Alarm (flooding) cancellation inactive"); (1, "Alarm (flooding) cancellation active")]; mkJP 10 "Interval between successive readings of temperature sensors" 2 300 1 32767 []; mkJP 12 "Insensitiveness to temperature changes." 2 50 0 1000 []; mkJP 13 "Alarm BROADCAST" 1 0 0 255 [(0, "Broadcast inactive"); (1, "Flood broadcast mode active, Tamper broadcast mode inactive"); (2, "Tamper broadcast mode inactive, Tamper broadcast mode active"); (3, "Flood and Tamper broadcast mode active")]; mkJP 50 "Low temperature alarm threshold" 2 1500 (-10000) 10000 []; mkJP 51 "High temperature alarm threshold" 2 3500 (-10000) 10000 []; mkJP 61 "Low temperature alarm indicator colour" 4 255 0 16777215 []; mkJP 62 "High temperature alarm indicator colour" 4 16711680 0 16777215 []; mkJP 63 "Managing a LED indicator under standard operation" 1 2 0 255 [(0, "LED indicator doesn’t indicate the temperature"); (1, "LED indicator indicates the temperature (blink)"); (2, "LED indicator indicates the temperature continuously")]; mkJP 73 "Temperature measurement compensation" 2 0 (-10000) 10000 []; mkJP 74 "Alarm frame sent to 2-nd Association Group activation" 1 2 0 255 [(0, "Tamper alarms inactive"); (1, "Button tamper alarm active"); (2, "Movement tamper alarm active"); (3, "Button and movement tampers alarm active")]; mkJP 75 "Visual and audible alarms duration" 2 0 0 65535 []; mkJP 76 "Visual and audible alarms duration" 2 0 0 65535 []; mkJP 77 "Flood sensor functionality turned off" 1 0 0 255 [(0, "Default flood sensor operation (flood detection, reactions)"); (1, "Built in flood sensor TURNED OFF")]].
Definition fpar176 : list jparam := [mkJP 1 "Alarm cancellation delay" 2 0 0 3600 []; mkJP 2 "Select alarm type (visual/acoustic)" 1 3 0 3 [(0, "Acoustic and visual alarms inactive"); (1, "Acoustic alarm inactive, visual alarm active"); (2, "Acoustic alarm active, visual alarm inactive"); (3, "Acoustic and visual alarms active")]; mkJP 7 "Requested dimming level to 2nd assoc. group" 1 255 1 255 []; mkJP 9 "Device off and alarm cancellations" 1 1 0 1 [(0, "Alarm (flooding) cancellation inactive"); (1, "Alarm (flooding) cancellation active")]; mkJP 10 "Temperature measurement interval" 4 300 1 65535 []; mkJP 12 "Temperature measurement hysteresis" 2 50 1 1000 []; mkJP 50 "Low temperature alarm threshold" 2 1500 (-10000) 10000 []; mkJP 51 "High temperature alarm threshold" 2 3500 (-10000) 10000 []; mkJP 61 "Low temperature alarm indicator colour" 4 255 0 16777215 []; mkJP 62 "High temperature alarm indicator colour" 4 16711680 0 16777215 []; mkJP 63 "Visual temperature indicator" 1 2 0 2 [(0, "Visual indicator does not indicate the temperature"); (1, "Indicator at every temperature measurement and wake up"); (2, "Visual indicator indicates the temperature continuously")]; mkJP 73 "Temperature measurement compensation" 2 0 (-10000) 10000 []; mkJP 74 "Alarm frame for movement/tamper" 1 2 0 3 [(0, "Tamper alarm inactive"); (1, "Button tamper alarm active"); (2, "Movement tamper alarm active"); (3, "Button and movement tampers alarm active")]; mkJP 75 "Alarms signalization duration" 4 0 0 65535 []; mkJP 76 "Alarm signalization reactivation period" 4 0 0 65535 []; mkJP 77 "Flood sensor functionality turned off" 1 0 0 1 [(0, "Default flood sensor operation (flood detection, reactions)"); (1, "Built-in flood sensor TURNED OFF")]; mkJP 78 "Associations in Z-Wave network security mode" 1 7 0 7 [(0, "None of the groups are sent as secure"); (1, "2nd group ”Control” sent as secure"); (2, "3rd group ”Alarm” sent as secure"); (3, "4th group ""Tamper” sent as secure")]].
Definition fpar177 : list jparam := [mkJP 1 "IN1 Alarm Cancellation Delay" 2 0 0 65535 []; mkJP 2 "Status change signalled by LED" 1 1 0 255 [(0, "LED turned Off"); (1, "LED turned On")]; mkJP 3 "Type of input no. 1" 1 0 0 255 [(0, "Normally Open"); (1, "Normally Closed"); (2, "Monostable"); (3, "Bistable")]; mkJP 5 "Type of transmitted control frame for association" 1 255 0 255 [(0, "ALARM GENERIC"); (1, "ALARM SMOKE"); (2, "ALARM CO"); (3, "ALARM CO2"); (4, "ALARM HEAT"); (5, "ALARM WATER"); (255, "BASIC_SET")]; mkJP 7 "Forced Level of Dimming group 1" 1 255 1 255 []; mkJP 9 "Enable/Disable transmission of frame cancelling alarm 	" 1 0 0 255 [(0, "Groups 1 and 2 sent"); (1, "Group 1 sent, Group 2 not sent."); (2, "Group 2 sent, Group 1 not sent.")]; mkJP 12 "Sensitivity to temperature changes" 1 8 0 255 []; mkJP 13 "Transmitting the alarm or control frame broadcast" 1 0 0 255 [(0, "IN and TMP Broadcast mode inactive"); (1, "IN broadcast mode active, TMP broadcast mode inactive	"); (2, "IN broadcast mode inactive, TMP broadcast mode active"); (3, "IN and TMP broadcast mode active")]; mkJP 14 "Scene activation" 1 0 0 255 [(0, "Disabled"); (1, "Enabled")]].
Definition fpar178 : list jparam := [mkJP 1 "Operations mode" 1 0 0 1 []; mkJP 2 "Door/Window or alarm status" 1 0 0 1 []; mkJP 3 "Visual LED indications" 1 6 0 6 []; mkJP 4 "Range test after double click" 1 0 0 1 []; mkJP 10 "2nd association group triggers" 1 0 0 2 []; mkJP 11 "Commands sent to 2nd association group" 1 2 0 2 []; mkJP 12 "Value of ON command frame sent to 2nd association group" 2 255 0 255 []; mkJP 13 "Value of OFF command frame sent to 2nd association group" 2 0 0 255 []; mkJP 14 "Time delay of ON command frame" 2 0 0 32400 []; mkJP 15 "Time delay of OFF command frame" 2 0 0 32400 []; mkJP 20 "Type of sent alarm frames" 1 0 0 5 []; mkJP 30 "Delay of tamper alarm cancellation" 2 5 0 32400 []; mkJP 31 "Reporting tamper alarm cancellation" 1 1 0 1 []; mkJP 50 "Interval of temperature measurements" 2 300 0 32400 []; mkJP 51 "Temperature reports threshold" 2 10 0 300 []; mkJP 52 "Interval of temperature reports" 2 0 0 32400 []; mkJP 53 "Temperature offset" 4 0 (-1000) 1000 []; mkJP 54 "Temperature alarm reports" 1 0 0 3 []; mkJP 55 "High temperature alarm threshold" 2 540 0 1000 []; mkJP 56 "Low temperature alarm threshold" 2 40 (-300) 700 []; mkJP 70 "Scene activation functionality" 2 0 1 2048 []; mkJP 71 "Alarm broadcast" 1 0 0 4 []; mkJP 72 "Associations in Z-Wave network Security Mode" 1 15 0 15 []].
Definition fpar179 : list jparam := [mkJP 1 "Lock Mode - unlocking sequence" 2 0 0 28086 []; mkJP 2 "Lock Mode - time to lock and locking button" 2 60 0 1791 []; mkJP 3 "First scene sequence" 2 0 0 28086 []; mkJP 4 "Second scene sequence" 2 0 0 28086 []; mkJP 5 "Third scene sequence" 2 0 0 28086 []; mkJP 6 "Fourth scene sequence" 2 0 0 28086 []; mkJP 7 "Fifth scene sequence" 2 0 0 28086 []; mkJP 8 "Sixth scene sequence" 2 0 0 28086 []; mkJP 9 "Sequences - timeout" 1 10 5 30 []; mkJP 10 "Single button associations - operating mode" 1 0 0 2 [(0, "single click switches state to opposite"); (1, "single click => opposite, double click => max"); (2, "single click turns on, double click turns off")]; mkJP 11 "Value sent to □ association group" 2 255 1 255 []; mkJP 12 "Value sent to ○ association group	" 2 255 1 255 []; mkJP 13 "Value sent to x association group	" 2 255 1 255 []; mkJP 14 "Value sent to Δ association group" 2 255 1 255 []; mkJP 15 "Value sent to - association group	" 2 255 1 255 []; mkJP 16 "Value sent to + association group" 2 255 1 255 []; mkJP 17 "Paired buttons association for □ and ○" 1 0 0 1 [(0, "paired buttons association inactive"); (1, "paired buttons association active")]; mkJP 18 "Paired buttons association for x and Δ" 1 0 0 1 [(0, "paired buttons association inactive"); (1, "paired buttons association active")]; mkJP 19 "Paired buttons association for - and +" 1 0 0 1 [(0, "paired buttons association inactive"); (1, "paired buttons association active")]; mkJP 21 "Scene activation for □ button" 1 9 0 15 []; mkJP 22 "Scene activation for ○ button" 1 9 0 15 []; mkJP 23 "Scene activation for x button	" 1 9 0 15 []; mkJP 24 "Scene activation for Δ button	" 1 9 0 15 []; mkJP 25 "Scene activation for - button	" 1 9 0 15 []; mkJP 26 "Scene activation for + button	" 1 9 0 15 []; mkJP 29 "Associations in Z-Wave network security mode" 2 4095 0 4095 []].
Definition fpar180 : list jparam := [mkJP 1 "Motion Sensor's Sensitivity" 1 10 8 255 []; mkJP 2 "Motion Sensor's Blind Time (Insensitive)" 1 15 0 15 []; mkJP 3 "PIR Sensor’s “PULSE COUNTER”" 1 1 0 3 []; mkJP 4 "PIR Sensor’s “WINDOW TIME”" 1 2 0 3 []; mkJP 6 "Motion Alarm Cancellation Delay" 2 30 1 65535 []; mkJP 8 "PIR Sensor Operating Mode" 1 0 0 255 [(0, "PIR sensor always active"); (1, "PIR sensor active during the day only"); (2, "PIR sensor active during the night only")]; mkJP 9 "Night / Day" 2 200 1 65535 []; mkJP 12 "BASIC command class configuration" 1 0 0 2 [(0, "BASIC ON and BASIC OFF"); (1, "Only the BASIC ON"); (2, "Only the BASIC OFF")]; mkJP 14 "BASIC ON command frame value" 1 255 0 255 []; mkJP 16 "BASIC OFF command frame value" 1 0 0 255 []; mkJP 20 "Tamper Sensitivity" 1 15 0 122 []; mkJP 22 "Tamper - alarm cancellation delay" 2 30 0 65535 []; mkJP 24 "Tamper Operating Modes" 1 0 0 255 [(0, "Tamper alarm is reported  / Cancellation is not reported."); (1, "Tamper alarm is reported / Cancellation is reported."); (2, "Same as Value 0 / with unsupported Fibar Command Class."); (3, "Same as Value 1 / with unsupported Fibar Command Class."); (4, "The maximum level of vibrations recorded in the time period.")]; mkJP 26 "Tamper Alarm Broadcast Mode" 1 0 0 255 [(0, "Tamper alarm is not sent in broadcast mode."); (1, "Tamper alarm sent in broadcast mode.")]; mkJP 40 "Illumination Report Threshold" 2 200 0 65535 []; mkJP 42 "Illumination Reports Interval" 2 0 0 65535 []; mkJP 60 "Temperature Report Threshold" 1 10 0 255 []; mkJP 62 "Interval of Temperature Measuring" 2 900 0 65535 []; mkJP 64 "Temperature Reports Interval" 2 0 0 65535 []; mkJP 66 "Temperature Offset" 2 0 (-100) 100 []; mkJP 80 "LED Signalling Mode" 1 10 0 255 [(0, "LED inactive."); (1, "LED colour depends on the temperature"); (2, "Flashlight mode - LED glows in white for 10 seconds."); (3, "White."); (4, "Red."); (5, "Green."); (6, "Blue."); (7, "Yellow."); (8, "Cyan."); (9, "Magenta."); (10, "LED colour depends on the temperature"); (11, "Flashlight mode"); (12, "White."); (13, "Red."); (14, "Green."); (15, "Blue."); (16, "Yellow."); (17, "Cyan."); (18, "Magenta."); (19, "LED colour depends on the temperature"); (20, "White."); (21, "Red."); (22, "Green."); (23, "Blue."); (24, "Yellow."); (25, "Cyan."); (26, "Magenta.")]; mkJP 81 "LED Brightness" 1 50 0 100 []; mkJP 82 "Ambient Illumination Level" 2 100 0 65535 []; mkJP 83 "Ambient Illumination Level" 2 1000 0 65535 []; mkJP 86 "Min Temperature Resulting in Blue LED Illumination" 1 18 0 100 []; mkJP 87 "Max Temperature Resulting in Red LED Illumination" 1 28 0 100 []; mkJP 89 "LED indicating Tamper Alarm" 1 0 0 255 [(0, "LED does not indicate tamper alarm."); (1, "LED indicates tamper alarm.")]].
Definition fpar181 : list jparam := [mkJP 1 "Motion detection - sensitivity" 2 15 8 255 []; mkJP 2 "Motion detection - blind time" 1 3 0 15 []; mkJP 3 "Motion detection - pulse counter" 1 1 0 3 [(0, "1 pulse"); (1, "2 pulses"); (2, "3 pulses"); (3, "4 pulses")]; mkJP 4 "Motion detection - window time" 1 2 0 3 [(0, "4 seconds"); (1, "8 seconds"); (2, "12 seconds"); (3, "16 seconds")]; mkJP 6 "Motion detection - alarm cancellation delay" 2 30 1 32767 []; mkJP 8 "Motion detection - operating mode" 1 0 0 2 [(0, "PIR sensor always active"); (1, "PIR sensor active during the day only"); (2, "PIR sensor active during the night only")]; mkJP 9 "Motion detection - night/day" 2 200 1 32767 []; mkJP 12 "BASIC command class configuration" 1 0 0 2 [(0, "BASIC ON and BASIC OFF"); (1, "Only the BASIC ON"); (2, "Only the BASIC OFF")]; mkJP 14 "BASIC ON command frame value" 2 255 0 255 []; mkJP 16 "BASIC OFF command frame value" 2 0 0 255 []; mkJP 18 "Associations in Z-Wave network Security Mode" 1 15 0 15 []; mkJP 20 "Tamper - sensitivity" 1 20 0 121 []; mkJP 22 "Tamper - alarm cancellation delay" 2 30 1 32767 []; mkJP 24 "Tamper - operating modes" 1 0 0 2 [(0, "Only tamper (default)"); (1, "Tamper and earthquake detector"); (2, "Tamper and orientation in space")]; mkJP 25 "Tamper - alarm cancellation" 1 1 0 1 [(0, "Do not send tamper cancellation report"); (1, "Send tamper cancellation report")]; mkJP 28 "Tamper - broadcast mode" 1 0 0 1 [(0, "Reported to association groups."); (1, "Reported in broadcast mode to 3rd association group.")]; mkJP 29 "Tamper - backward compatible broadcast mode" 1 0 0 1 [(0, "Reported to association groups."); (1, "Reported in broadcast mode to 5th association group.")]; mkJP 40 "Illuminance report - threshold" 2 200 0 32767 []; mkJP 42 "Illuminance report - interval" 2 3600 0 32767 []; mkJP 60 "Temperature report - threshold" 2 20 0 255 []; mkJP 62 "Temperature measuring - interval" 2 900 0 32767 []; mkJP 64 "Temperature report - interval" 2 0 0 32767 []; mkJP 66 "Temperature offset" 2 0 0 65535 []; mkJP 80 "LED - signalling mode" 1 10 0 255 [(0, "LED inactive."); (1, "LED colour depends on the temperature"); (2, "Flashlight mode - LED glows in white for 10 seconds."); (3, "White."); (4, "Red."); (5, "Green."); (6, "Blue."); (7, "Yellow."); (8, "Cyan."); (9, "Magenta."); (10, "LED colour depends on the temperature"); (11, "Flashlight mode"); (12, "White."); (13, "Red."); (14, "Green."); (15, "Blue."); (16, "Yellow."); (17, "Cyan."); (18, "Magenta."); (19, "LED colour depends on the temperature"); (20, "White."); (21, "Red."); (22, "Green."); (23, "Blue."); (24, "Yellow."); (25, "Cyan."); (26, "Magenta.")]; mkJP 81 "LED - brightness" 1 50 0 100 []; mkJP 82 "LED - illuminance for low indicator brightness" 2 100 0 32767 []; mkJP 83 "LED - illuminance for high indicator brightness" 2 1000 0 32767 []; mkJP 86 "LED - temperature for blue colour" 2 18 0 255 []; mkJP 87 "LED - temperature for red colour" 2 28 0 255 []; mkJP 89 "LED - tamper alarm" 1 1 0 1 [(0, "LED does not indicate tamper alarm."); (1, "LED indicates tamper alarm.")]].
Definition fpar182 : list jparam := [mkJP 1 " Scenes sent to the controller" 1 127 1 127 []; mkJP 3 "Associations in Z-Wave network Security Mode" 1 7 1 7 []; mkJP 10 " Key Pressed 1 time – command sent to 2nd group" 1 3 0 3 []; mkJP 11 " Key Pressed 1 time – value of SWITCH ON sent to 2nd group" 2 255 1 255 []; mkJP 12 " Key Pressed 2 times – command sent to 2nd group" 1 1 0 3 []; mkJP 13 "Key Pressed 2 times – value of SWITCH ON sent to 2nd group" 2 99 1 255 []; mkJP 14 "Key Pressed 3 times – command sent to 2nd group" 1 0 0 3 []; mkJP 15 "Key Pressed 3 times – value of SWITCH ON sent to 2nd group" 2 255 1 255 []; mkJP 20 " Key Pressed 1 time – command sent to 3rd group" 1 3 1 3 []; mkJP 21 "Key Pressed 1 time – value of SWITCH ON sent to 3rd group" 2 255 1 255 []; mkJP 22 " Key Pressed 2 times – command sent to 3rd group" 1 1 1 3 []; mkJP 23 "Key Pressed 2 times – value of SWITCH ON sent to 3rd group" 2 99 1 255 []; mkJP 24 "Key Pressed 3 times – command sent to 3rd group" 1 0 0 3 []; mkJP 25 "Key Pressed 3 times – value of SWITCH ON sent to 3rd group" 2 255 1 255 []; mkJP 29 "Key Held Down – command sent to 3rd group" 1 3 0 3 []; mkJP 30 "Alarm frame triggers" 1 127 1 127 []].
Definition fpar183 : list jparam := [mkJP 1 "Enable/Disable ALL ON/OFF" 1 255 0 255 [((-1), "ALL ON active / ALL OFF active"); (0, "ALL ON disabled/ ALL OFF disabled"); (1, "ALL ON disabled/ ALL OFF active"); (2, "ALL ON active / ALL OFF disabled")]; mkJP 10 "Control key #2 behaviour" 1 0 0 255 [(0, "Turning on the shutter positioning function - Default"); (1, "Turning off the shutter positioning function")]; mkJP 14 "Inputs Button/Switch configuration" 1 0 0 255 [(0, "Mono-stable input (button)"); (1, "Bi-stable input (switch)"); (2, "Single Mono-stable switch")]; mkJP 20 "Dimmer/Roller shutter control" 1 16 0 255 []; mkJP 30 "General Alarm" 1 2 0 255 [(0, "DEACTIVATION"); (1, "OPEN SHUTTER ALARM"); (2, "CLOSED SHUTTER ALARM")]; mkJP 31 "Alarm of flooding with water" 1 0 0 255 [(0, "DEACTIVATION"); (1, "OPEN SHUTTER ALARM"); (2, "CLOSED SHUTTER ALARM")]; mkJP 32 "Smoke, CO, CO2 Alarm." 1 1 0 255 [(0, "DEACTIVATION"); (1, "OPEN SHUTTER ALARM"); (2, "CLOSED SHUTTER ALARM")]; mkJP 33 "Temperature Alarm" 1 1 0 255 [(0, "DEACTIVATION"); (1, "OPEN SHUTTER ALARM"); (2, "CLOSED SHUTTER ALARM")]; mkJP 41 "Scene activation functionality" 1 0 0 255 [(0, "Deactivation of functionality - Default"); (1, "Activation of functionality")]].
Definition fpar184 : list jparam := [mkJP 1 "ALL ON / ALL OFF function activation" 1 255 0 255 [((-1), "ALL ON active ALL OFF active"); (0, "ALL ON inactive ALL OFF inactive"); (1, "ALL ON inactive ALL OFF active"); (2, "ALL ON active ALL OFF inactive")]; mkJP 6 "Associations command class choice" 1 0 0 255 [(0, "Normal (Dimmer) - BASIC_SET/SWITCH_MULTILEVEL_START/STOP"); (1, "Normal (RGBW) - COLOR_CONTROL_SET/START/STOP_STATE_CHANGE"); (2, "Normal (RGBW) - COLOR_CONTROL_SET"); (3, "Brightness - BASIC_SET/SWITCH_MULTILEVEL_START/STOP"); (4, "Rainbow (RGBW) - COLOR_CONTROL_SET")]; mkJP 8 "Outputs state change mode" 1 0 0 255 [(0, "MODE1 (related parameters: 9-step value, 10-time between steps)"); (1, "MODE2 (related parameters: 11-time to change value, relevant for RGB/R")]; mkJP 9 "Step value (relevant for MODE1)" 1 1 1 255 []; mkJP 10 "Time between steps (relevant for MODE1)" 2 10 0 60000 []; mkJP 11 "Time for changing from start to end value" 1 67 1 255 []; mkJP 12 "Maximum Brightening level" 1 255 3 255 []; mkJP 13 "Minimum dim level" 1 2 3 255 []; mkJP 14 "Inputs/Outputs configuration - relevant for main controllers other than Home Center 2 only" 2 4369 0 65535 []; mkJP 16 "Remember device status after power failure" 1 1 0 255 [(0, "Do not remember state"); (1, "Remember state before power failure")]; mkJP 30 "Alarm of any type (General alarm, flood alarm, smoke alarm: CO, CO2, temperature alarm.)" 1 0 0 255 [(0, "INACTIVE - the device doesn't respond to alarm frames"); (1, "ALARM ON - the device turns on once alarm is detected (all channels se"); (2, "ALARM OFF - the device turns off once alarm is detected (all channels "); (3, "ALARM PROGRAM - alarm sequence turns on (program selected in parameter")]; mkJP 38 "Alarm sequence program" 1 10 1 10 []; mkJP 39 "Active PROGRAM alarm time" 2 600 1 65534 []; mkJP 42 "Command class reporting Outputs status change" 1 0 0 255 [(0, "Reporting as a result of inputs and controllers actions (SWITCH MULTIL"); (1, "Reporting as a result of inputs actions (SWITCH MULTILEVEL)"); (2, "Reporting as a result of inputs actions (COLOR CONTROL)")]; mkJP 43 "Reporting 0-10v analog inputs change threshold" 1 5 1 100 []; mkJP 44 "Power load reporting frequency" 2 30 1 65534 []; mkJP 45 "Reporting Changes in energy consumed by controlled devices" 1 1 1 255 []; mkJP 71 "Response to BRIGHTNESS set to 0%" 1 1 0 255 [(0, "illumination colour set to white (all channels controlled together)"); (1, "last set colour is memorized")]; mkJP 72 "Starting animation program" 1 1 1 10 []; mkJP 73 "Triple click action" 1 0 0 255 [(0, "NODE INFO control frame is sent"); (1, "starting favourite program")]].
Definition fpar185 : list jparam := [mkJP 1 "Local protection" 1 255 0 255 [(0, "No protection. Roller Shutter responds to push buttons"); (2, "Local protection active. Roller Shutter does not respond to push butto")]; mkJP 2 "Radio protection" 1 0 0 255 [(0, "No protection. Roller Shutter responds to command frames."); (1, "RF Protection active. Roller Shutter does not respond to the Z-Wave co")]; mkJP 3 "Reports type" 1 0 0 255 [(0, "Blind position reports sent to the main controller using Z-Wave Comman"); (1, "Blind position reports sent to the main controller using Fibar Command")]; mkJP 10 "Roller Shutter operating modes" 1 1 0 255 [(0, "Roller Blind Mode, without positioning"); (1, "Roller Blind Mode, with positioning"); (2, "Venetian Blind Mode, with positioning"); (3, "Gate Mode, without positioning"); (4, "Gate Mode, with positioning")]; mkJP 12 "Turning time/ delay time" 2 150 0 65535 []; mkJP 13 "Lamellas positioning mode" 1 1 0 255 [(0, "Lamellas return to previously set position only in case of the main co"); (1, "Lamellas return to previously set position in case of the main control"); (2, "Lamellas return to previously set position in case of the main control")]; mkJP 14 "Switch type" 1 0 0 255 [(0, "Momentary switches"); (1, "Toggle switches"); (2, "Single, momentary switch.")]; mkJP 17 "Delay time after S2" 1 10 0 255 []; mkJP 18 "Motor operation detection" 1 10 0 255 []; mkJP 22 "Motor operation time" 2 10 0 65535 []; mkJP 29 "Forced Roller Shutter calibration" 1 0 0 255 [(0, "Deactivated"); (1, "Start calibration process")]; mkJP 30 "Response to General Alarm" 1 2 0 255 [(0, "No response to alarm frames"); (1, "Open Blind"); (2, "Close Blind")]; mkJP 31 "Response to Water Flood Alarm" 1 0 0 255 [(0, "No response to alarm frames"); (1, "Open Blind"); (2, "Close Blind")]; mkJP 32 "Response to Smoke, CO, CO2 Alarm" 1 3 0 255 [(0, "No response to alarm frames"); (1, "Open Blind"); (2, "Close Blind")]; mkJP 33 "Response to Temperature Alarm" 1 1 0 255 [(0, "No response to alarm frames"); (1, "Open Blind"); (2, "Close Blind")]; mkJP 35 "Managing lamellas in response to alarm" 1 1 0 255 [(0, "Do not change lamellas position"); (1, "Set lamellas to their extreme position")]; mkJP 40 "Power reports" 1 10 0 100 []; mkJP 42 "Periodic power or energy reports" 2 3600 (-32767) 32767 []; mkJP 43 "Energy reports" 1 10 (-126) 127 []; mkJP 44 "Self-measurement" 1 0 0 255 [(0, "Disabled"); (1, "Activated")]; mkJP 50 "Scenes/ Associations activation" 1 0 0 255 [(0, "Associations Active"); (1, "Scenes Active")]].
Definition fpar186 : list jparam := [mkJP 3 "Reports type" 1 0 0 1 [(0, "Blind position using Z-Wave Command"); (1, "Blind position via Fibar Command")]; mkJP 10 "Roller Shutter operating modes" 1 1 0 4 [(0, "Roller Blind Mode, without positioning"); (1, "Roller Blind Mode, with positioning"); (2, "Venetian Blind Mode, with positioning"); (3, "Gate Mode, without positioning"); (4, "Gate Mode, with positioning")]; mkJP 12 "Turning time/ delay time" 2 150 0 65535 []; mkJP 13 "Lamellas positioning mode" 1 2 0 2 [(0, "only in case of the main controller operation"); (1, "default - controller+switchlimit"); (2, "like 1 + STOP control frame")]; mkJP 14 "Switch type" 1 0 0 2 [(0, "Momentary switches"); (1, "Toggle switches"); (2, "Single, momentary switch.")]; mkJP 17 "Delay time after S2" 1 10 0 255 []; mkJP 18 "Motor operation detection" 1 10 0 255 []; mkJP 22 "Motor operation time" 2 10 0 65535 []; mkJP 29 "Forced Roller Shutter calibration" 1 0 0 1 [(0, "Deactivated"); (1, "Start calibration process")]; mkJP 30 "Response to General Alarm" 1 2 0 2 [(0, "No response to alarm frames"); (1, "Open Blind"); (2, "Close Blind")]; mkJP 31 "Response to Water Flood Alarm" 1 0 0 2 [(0, "No response to alarm frames"); (1, "Open Blind"); (2, "Close Blind")]; mkJP 32 "Response to Smoke, CO, CO2 Alarm" 1 1 0 2 [(0, "No response to alarm frames"); (1, "Open Blind"); (2, "Close Blind")]; mkJP 33 "Response to Temperature Alarm" 1 1 0 2 [(0, "No response to alarm frames"); (1, "Open Blind"); (2, "Close Blind")]; mkJP 35 "Managing lamellas in response to alarm" 1 1 0 255 [(0, "Do not change lamellas position"); (1, "Set lamellas to their extreme position")]; mkJP 40 "Power reports" 1 10 0 100 []; mkJP 42 "Periodic power or energy reports" 2 3600 0 65534 []; mkJP 43 "Energy reports" 1 10 0 254 []; mkJP 44 "Self-measurement" 1 0 0 1 [(0, "Disabled"); (1, "Activated")]; mkJP 50 "Scenes/ Associations activation" 1 0 0 1 [(0, "Associations Active"); (1, "Scenes Active")]].
Definition fpar187 : list jparam := [mkJP 3 "Reports type" 1 0 0 1 [(0, "Blind position reports sent to the main controller using Z-Wave Comman"); (1, "Blind position reports sent to the main controller using Fibar Command")]; mkJP 10 "Roller Shutter operating modes" 1 1 0 4 [(0, "Roller Blind Mode, without positioning"); (1, "Roller Blind Mode, with positioning"); (2, "Venetian Blind Mode, with positioning"); (3, "Gate Mode, without positioning"); (4, "Gate Mode, with positioning")]; mkJP 12 "Turning time/ delay time" 2 150 0 65535 []; mkJP 13 "Lamellas positioning mode" 1 2 0 2 [(0, "Lamellas return to previously set position only in case of the main co"); (1, "Lamellas return to previously set position in case of the main control"); (2, "Lamellas return to previously set position in case of the main control")]; mkJP 14 "Switch type" 1 0 0 2 [(0, "Momentary switches"); (1, "Toggle switches"); (2, "Single, momentary switch.")]; mkJP 17 "Delay time after S2" 1 10 0 255 []; mkJP 18 "Motor operation detection" 1 10 0 255 []; mkJP 22 "Motor operation time" 2 10 0 65535 []; mkJP 29 "Forced Roller Shutter calibration" 1 0 0 1 [(0, "Deactivated"); (1, "Start calibration process")]; mkJP 30 "Response to General Alarm" 1 2 0 2 [(0, "No response to alarm frames"); (1, "Open Blind"); (2, "Close Blind")]; mkJP 31 "Response to Water Flood Alarm" 1 0 0 2 [(0, "No response to alarm frames"); (1, "Open Blind"); (2, "Close Blind")]; mkJP 32 "Response to Smoke, CO, CO2 Alarm" 1 1 0 2 [(0, "No response to alarm frames"); (1, "Open Blind"); (2, "Close Blind")]; mkJP 33 "Response to Temperature Alarm" 1 1 0 2 [(0, "No response to alarm frames"); (1, "Open Blind"); (2, "Close Blind")]; mkJP 35 "Managing lamellas in response to alarm" 1 1 0 255 [(0, "Do not change lamellas position"); (1, "Set lamellas to their extreme position")]; mkJP 40 "Power reports" 1 10 0 100 []; mkJP 42 "Periodic power or energy reports" 2 3600 0 65534 []; mkJP 43 "Energy reports" 1 10 0 254 []; mkJP 44 "Self-measurement" 1 0 0 1 [(0, "Disabled"); (1, "Activated")]; mkJP 50 "Scenes/ Associations activation" 1 0 0 1 [(0, "Associations Active"); (1, "Scenes Active")]].
Definition fpar188 : list jparam := [mkJP 1 "Enable/Disable ALL ON/OFF" 1 255 0 255 [((-1), "ALL ON active / ALL OFF active"); (0, "ALL ON disabled / ALL OFF disabled"); (1, "ALL ON disabled / ALL OFF active"); (2, "ALL ON active / ALL OFF disabled")]; mkJP 3 "Enable/Disable OFF-delay" 1 0 0 255 [(0, "Auto OFF disabled for both relays"); (1, "Auto OFF active only for relay 1")]; mkJP 4 "Relay 1: OFF-delay time (10ms steps)" 1 20 0 255 []; mkJP 6 "Separation of association sending (key 1)" 1 0 0 255 [(0, "Map status to all devices in group 1"); (1, "Map OFF status to all devices in group 1, Double click on key 1 will s"); (2, "Map OFF status to all devices in group 1, Double click on key 1 will s")]; mkJP 13 "Inputs behaviour" 1 0 0 255 [(0, "Toggle"); (1, "Follow switch contact (closed=ON, open=OFF)")]; mkJP 14 "Inputs Button/Switch configuration" 1 1 0 255 [(0, "Mono-stable input (button)"); (1, "Bi-stable input (switch)")]; mkJP 15 "Dimmer/Roller shutter control" 1 0 0 255 [(0, "Disable Dimmer/Roller shutter control"); (1, "Enable Dimmer/Roller shutter control")]; mkJP 16 "Saving state before power failure" 1 1 0 255 [(0, "State NOT saved at power failure, all outputs are set to OFF upon powe"); (1, "State saved at power failure, all outputs are set to previous state up")]; mkJP 30 "Relay 1: Response to General Alarm" 1 3 0 255 [(0, "DEACTIVATION - no response to alarm frames"); (1, "ALARM RELAY ON - relay will turn ON upon receipt of alarm frame"); (2, "ALARM RELAY OFF - relay will turn OFF upon receipt of alarm frame"); (3, "ALARM FLASHING - relay will turn ON and OFF periodically (see param.39")]; mkJP 31 "Relay 1: Response to Water Flood Alarm" 1 2 0 255 [(0, "DEACTIVATION - no response to alarm frames"); (1, "ALARM RELAY ON - relay will turn ON upon receipt of alarm frame"); (2, "ALARM RELAY OFF - relay will turn OFF upon receipt of alarm frame"); (3, "ALARM FLASHING - relay will turn ON and OFF periodically (see param.39")]; mkJP 32 "Relay 1: Response to Smoke, CO, CO2 Alarm" 1 3 0 255 [(0, "DEACTIVATION - no response to alarm frames"); (1, "ALARM RELAY ON - relay will turn ON upon receipt of alarm frame"); (2, "ALARM RELAY OFF - relay will turn OFF upon receipt of alarm frame"); (3, "ALARM FLASHING - relay will turn ON and OFF periodically (see param.39")]; mkJP 33 "Relay 1: Response to Temperature Alarm" 1 1 0 255 [(0, "DEACTIVATION - no response to alarm frames"); (1, "ALARM RELAY ON - relay will turn ON upon receipt of alarm frame"); (2, "ALARM RELAY OFF - relay will turn OFF upon receipt of alarm frame"); (3, "ALARM FLASHING - relay will turn ON and OFF periodically (see param.39")]; mkJP 39 "ALARM FLASHING alarm time" 2 600 0 65535 []].
Definition fpar189 : list jparam := [mkJP 1 "Enable/Disable ALL ON/OFF" 1 255 0 255 [(0, "ALL ON disabled / ALL OFF disabled"); (1, "ALL ON disabled / ALL OFF active"); (2, "ALL ON active / ALL OFF disabled"); (255, "ALL ON active / ALL OFF active")]; mkJP 3 "Override OFF-delay" 1 0 0 1 [(0, "Turn off with push button disabled in auto off interval"); (1, "Turn off with push button enabled in auto off interval")]; mkJP 4 "Relay 1: OFF-delay time (100ms steps)" 2 0 0 65535 []; mkJP 6 "Separation of association sending (key 1)" 1 0 0 255 [(0, "Map status to all devices in group 1"); (1, "Map OFF status to all devices in group 1  ..."); (2, "Map OFF status to all devices in group 1 ...")]; mkJP 13 "Inputs behaviour" 1 0 0 255 [(0, "Toggle"); (1, "Follow switch contact (closed=ON, open=OFF)")]; mkJP 14 "Inputs Button/Switch configuration" 1 1 0 255 [(0, "Mono-stable input (button)"); (1, "Bi-stable input (switch)")]; mkJP 15 "Dimmer/Roller shutter control" 1 0 0 255 [(0, "Disable Dimmer/Roller shutter control"); (1, "Enable Dimmer/Roller shutter control")]; mkJP 16 "Saving state before power failure" 1 1 0 255 [(0, "State NOT saved at power failure, all outputs are set ..."); (1, "State saved at power failure, all outputs are set to ...")]; mkJP 30 "Relay 1: Response to General Alarm" 1 3 0 255 [(0, "DEACTIVATION - no response to alarm frames"); (1, "ALARM RELAY ON - relay will turn ON upon receipt ..."); (2, "ALARM RELAY OFF - relay will turn OFF upon receipt ..."); (3, "ALARM FLASHING - relay will turn ON and OFF ...")]; mkJP 31 "Relay 1: Response to Water Flood Alarm" 1 2 0 255 [(0, "DEACTIVATION - no response to alarm frames"); (1, "ALARM RELAY ON - relay will turn ON upon receipt ..."); (2, "ALARM RELAY OFF - relay will turn OFF upon receipt ..."); (3, "ALARM FLASHING - relay will turn ON and OFF ...")]; mkJP 32 "Relay 1: Response to Smoke, CO, CO2 Alarm" 1 3 0 255 [(0, "DEACTIVATION - no response to alarm frames"); (1, "ALARM RELAY ON - relay will turn ON upon receipt ..."); (2, "ALARM RELAY OFF - relay will turn OFF upon receipt ..."); (3, "ALARM FLASHING - relay will turn ON and OFF ...")]; mkJP 33 "Relay 1: Response to Temperature Alarm" 1 1 0 255 [(0, "DEACTIVATION - no response to alarm frames"); (1, "ALARM RELAY ON - relay will turn ON upon receipt ..."); (2, "ALARM RELAY OFF - relay will turn OFF upon receipt ..."); (3, "ALARM FLASHING - relay will turn ON and OFF ...")]; mkJP 39 "ALARM FLASHING alarm time" 2 600 0 65535 []].
Definition fpar190 : list jparam := [mkJP 9 "Restore state after power failure" 1 1 0 1 [(0, "off after power loss"); (1, "restore last state")]; mkJP 10 "First channel operating mode" 1 0 0 5 [(0, "standard operation"); (1, "delay ON"); (2, "delay OFF"); (3, "auto ON"); (4, "auto OFF"); (5, "flashing mode")]; mkJP 11 "1st ch. reaction to switch" 1 0 0 2 [(0, "cancel mode and set target state"); (1, "no reaction to switch - mode runs until it ends"); (2, "reset timer - start counting from the beginning")]; mkJP 12 "time parameter for delay/auto ON/OFF modes" 2 50 0 32000 []; mkJP 13 "1st ch. pulse time for flashing mode" 2 5 1 32000 []; mkJP 20 "Switch type" 1 2 0 2 [(0, "momentary switch"); (1, "toggle switch stable"); (2, "toggle switch")]; mkJP 21 "Flashing mode - reports" 1 0 0 1 [(0, "the device does not send reports"); (1, "the device sends reports")]; mkJP 27 "Associations in Z-Wave network security mode" 1 15 1 15 [(0, "no group sent as secure"); (1, "2nd group sent as secure"); (2, "3rd group sent as secure"); (4, "4th group sent as secure"); (8, "5th group sent as secure"); (15, "all groups sent as secure")]; mkJP 28 "S1 switch - scenes sent" 1 0 0 15 [(0, "no scenes sent"); (1, "Key pressed 1 time"); (2, "Key pressed 2 times"); (4, "Key pressed 3 times"); (8, "Key Hold Down and Key Released")]; mkJP 29 "S2 switch - scenes sent" 1 0 0 15 [(0, "no scenes sent"); (1, "Key pressed 1 time"); (2, "Key pressed 2 times"); (4, "Key pressed 3 times"); (8, "Key Hold Down and Key Released")]; mkJP 30 "S1 assocs. sent to 2nd and 3rd group" 1 0 0 15 [(0, "All actions are active by default"); (1, "ignore turning ON with 1 click of the switch"); (2, "ignore turning OFF with 1 click of the switch"); (4, "ignore holding and releasing the switch"); (8, "ignore double click of the switch")]; mkJP 31 "S1 ON val sent to 2nd and 3rd groups" 2 255 0 255 []; mkJP 32 "S1 OFF val sent to 2nd and 3rd groups" 2 0 0 255 []; mkJP 33 "S1 DblClick val sent to 2nd and 3rd groups" 2 99 0 255 []; mkJP 35 "S2 assocs. sent to 4th and 5th group" 1 0 0 15 [(0, "All actions are active by default"); (1, "ignore turning on with 1 click of the switch"); (2, "ignore turning off with 1 click of the switch"); (4, "ignore holding and releasing the switch"); (8, "ignore double click of the switch")]; mkJP 50 "Active power reports" 1 20 0 100 []; mkJP 51 "Minimal time between power report" 1 10 0 120 []; mkJP 53 "Energy reports" 2 100 0 32000 []; mkJP 58 "Periodic power reports" 2 3600 0 32000 []; mkJP 59 "Periodic energy reports" 2 3600 0 32000 []; mkJP 60 "Measuring energy consumed by the device itself" 1 0 0 1 [(0, "Self-measurement inactive"); (1, "Self-measurement active")]].
Definition fpar191 : list jparam := [mkJP 1 "Enable/Disable ALL ON/OFF" 1 255 0 255 [(0, "ALL ON disabled/ ALL OFF disabled"); (1, "ALL ON disabled/ ALL OFF active"); (2, "ALL ON active / ALL OFF disabled"); (255, "ALL ON active / ALL OFF active")]; mkJP 3 "Enable/Disable OFF-delay" 1 0 0 255 [(0, "Auto OFF disabled for both relays"); (1, "Auto OFF active only for relay 1"); (2, "Auto OFF active only for relay 2"); (3, "Auto OFF active for both relays")]; mkJP 4 "Relay 1: OFF-delay time (10ms steps)" 1 20 0 255 []; mkJP 5 "Relay 2: OFF-delay time (10ms steps)" 1 20 0 255 []; mkJP 6 "Separation of association sending (key 1)" 1 0 0 255 [(0, "Map status to all devices in group 1"); (1, "Map OFF status to all devices in group 1, double click on key 1 will s"); (2, "Map OFF status to all devices in group 1, double click on key 1 will s")]; mkJP 7 "Separation of association sending (key 2)" 1 0 0 255 [(0, "Map status to all devices in group 2"); (1, "Map OFF status to all devices in group 2, double click on key 2 will s"); (2, "Map OFF status to all devices in group 2, double click on key 2 will s")]; mkJP 13 "Inputs behaviour" 1 0 0 255 [(0, "Toggle"); (1, "Follow switch contact (closed=ON, open=OFF)")]; mkJP 14 "Inputs Button/Switch configuration" 1 1 0 255 [(0, "Mono-stable input (button)"); (1, "Bi-stable input (switch)")]; mkJP 15 "Dimmer/Roller shutter control" 1 0 0 255 [(0, "Disable Dimmer/Roller shutter control"); (1, "Enable Dimmer/Roller shutter control")]; mkJP 16 "Saving state before power failure" 1 1 0 255 [(0, "State NOT saved at power failure, all outputs are set to OFF upon powe"); (1, "State saved at power failure, all outputs are set to previous state up")]; mkJP 30 "Relay 1: Response to General Alarm" 1 3 0 255 [(0, "DEACTIVATION - no response to alarm frames"); (1, "ALARM RELAY ON - relay will turn ON upon receipt of alarm frame"); (2, "ALARM RELAY OFF - relay will turn OFF upon receipt of alarm frame"); (3, "ALARM FLASHING - relay will turn ON and OFF periodically (see param.39")]; mkJP 31 "Relay 1: Response to Water Flood Alarm" 1 2 0 255 [(0, "DEACTIVATION - no response to alarm frames"); (1, "ALARM RELAY ON - relay will turn ON upon receipt of alarm frame"); (2, "ALARM RELAY OFF - relay will turn OFF upon receipt of alarm frame"); (3, "ALARM FLASHING - relay will turn ON and OFF periodically (see param.39")]; mkJP 32 "Relay 1: Response to Smoke, CO, CO2 Alarm" 1 3 0 255 [(0, "DEACTIVATION - no response to alarm frames"); (1, "ALARM RELAY ON - relay will turn ON upon receipt of alarm frame"); (2, "ALARM RELAY OFF - relay will turn OFF upon receipt of alarm frame"); (3, "ALARM FLASHING - relay will turn ON and OFF periodically (see param.39")]; mkJP 33 "Relay 1: Response to Temperature Alarm" 1 1 0 255 [(0, "DEACTIVATION - no response to alarm frames"); (1, "ALARM RELAY ON - relay will turn ON upon receipt of alarm frame"); (2, "ALARM RELAY OFF - relay will turn OFF upon receipt of alarm frame"); (3, "ALARM FLASHING - relay will turn ON and OFF periodically (see param.39")]; mkJP 39 "ALARM FLASHING alarm time" 2 600 0 65535 []; mkJP 40 "Relay 2: Response to General Alarm" 1 3 0 255 [(0, "DEACTIVATION - no response to alarm frames"); (1, "ALARM RELAY ON - relay will turn ON upon receipt of alarm frame"); (2, "ALARM RELAY OFF - relay will turn OFF upon receipt of alarm frame"); (3, "ALARM FLASHING - relay will turn ON and OFF periodically (see param.39")]; mkJP 41 "Relay 2: Response to Water Flood Alarm" 1 2 0 255 [(0, "DEACTIVATION - no response to alarm frames"); (1, "ALARM RELAY ON - relay will turn ON upon receipt of alarm frame"); (2, "ALARM RELAY OFF - relay will turn OFF upon receipt of alarm frame"); (3, "ALARM FLASHING - relay will turn ON and OFF periodically (see param.39")]; mkJP 42 "Relay 2: Response to Smoke, CO, CO2 Alarm" 1 3 0 255 [(0, "Deactivated"); (1, "Alarm Relay On"); (2, "Alarm Relay Off"); (3, "Alarm Flashing")]; mkJP 43 "Relay 2: Response to Temperature Alarm" 1 1 0 255 [(0, "DEACTIVATION - no response to alarm frames"); (1, "ALARM RELAY ON - relay will turn ON upon receipt of alarm frame"); (2, "ALARM RELAY OFF - relay will turn OFF upon receipt of alarm frame"); (3, "ALARM FLASHING - relay will turn ON and OFF periodically (see param.39")]].
Definition fpar192 : list jparam := [mkJP 1 "Enable/Disable ALL ON/OFF" 1 255 0 255 [((-1), "ALL ON active / ALL OFF active"); (0, "ALL ON disabled/ ALL OFF disabled"); (1, "ALL ON disabled/ ALL OFF active"); (2, "ALL ON active / ALL OFF disabled")]; mkJP 3 "Enable/Disable Manual Override" 1 0 0 255 [(0, "Manual Override Disabled"); (1, "Manual Override Enabled")]; mkJP 4 "Relay 1: OFF-delay time" 2 0 0 65535 []; mkJP 5 "Relay 2: OFF-delay time" 2 0 0 65535 []; mkJP 6 "Separation of association sending (key 1)" 1 0 0 255 [(0, "Map status to all devices in group 1"); (1, "Map OFF status to all devices in group 1, Double click on key 1 will s"); (2, "Map OFF status to all devices in group 1, Double click on key 1 will s")]; mkJP 7 "Control key #2 behaviour" 1 1 0 255 [(0, "Device status is not checked"); (1, "Device status is checked")]; mkJP 13 "Inputs behaviour" 1 0 0 255 [(0, "Toggle"); (1, "Follow switch contact (closed=ON, open=OFF)")]; mkJP 14 "Inputs Button/Switch configuration" 1 1 0 255 [(0, "Mono-stable input (button)"); (1, "Bi-stable input (switch)")]; mkJP 15 "Dimmer/Roller shutter control" 1 0 0 255 [(0, "Disable Dimmer/Roller shutter control"); (1, "Enable Dimmer/Roller shutter control")]; mkJP 16 "Saving state before power failure" 1 1 0 255 [(0, "State NOT saved at power failure, all outputs are set to OFF upon powe"); (1, "State saved at power failure, all outputs are set to previous state up")]; mkJP 30 "Relay 1: Response to General Alarm" 1 3 0 255 [(0, "DEACTIVATION - no response to alarm frames"); (1, "ALARM RELAY ON - relay will turn ON upon receipt of alarm frame"); (2, "ALARM RELAY OFF - relay will turn OFF upon receipt of alarm frame"); (3, "ALARM FLASHING - relay will turn ON and OFF periodically (see param.39")]; mkJP 31 "Relay 1: Response to Water Flood Alarm" 1 2 0 255 [(0, "DEACTIVATION - no response to alarm frames"); (1, "ALARM RELAY ON - relay will turn ON upon receipt of alarm frame"); (2, "ALARM RELAY OFF - relay will turn OFF upon receipt of alarm frame"); (3, "ALARM FLASHING - relay will turn ON and OFF periodically (see param.39")]; mkJP 32 "Relay 1: Response to Smoke, CO, CO2 Alarm" 1 3 0 255 [(0, "DEACTIVATION - no response to alarm frames"); (1, "ALARM RELAY ON - relay will turn ON upon receipt of alarm frame"); (2, "ALARM RELAY OFF - relay will turn OFF upon receipt of alarm frame"); (3, "ALARM FLASHING - relay will turn ON and OFF periodically (see param.39")]; mkJP 33 "Relay 1: Response to Temperature Alarm" 1 1 0 255 [(0, "DEACTIVATION - no response to alarm frames"); (1, "ALARM RELAY ON - relay will turn ON upon receipt of alarm frame"); (2, "ALARM RELAY OFF - relay will turn OFF upon receipt of alarm frame"); (3, "ALARM FLASHING - relay will turn ON and OFF periodically (see param.39")]; mkJP 39 "ALARM FLASHING alarm time" 2 600 0 65535 []; mkJP 40 "Relay 2: Response to General Alarm" 1 3 0 255 [(0, "DEACTIVATION - no response to alarm frames"); (1, "ALARM RELAY ON - relay will turn ON upon receipt of alarm frame"); (2, "ALARM RELAY OFF - relay will turn OFF upon receipt of alarm frame"); (3, "ALARM FLASHING - relay will turn ON and OFF periodically (see param.39")]; mkJP 41 "Relay 2: Response to Water Flood Alarm" 1 2 0 255 [(0, "DEACTIVATION - no response to alarm frames"); (1, "ALARM RELAY ON - relay will turn ON upon receipt of alarm frame"); (2, "ALARM RELAY OFF - relay will turn OFF upon receipt of alarm frame"); (3, "ALARM FLASHING - relay will turn ON and OFF periodically (see param.39")]; mkJP 42 "Relay 2: Response to Smoke, CO, CO2 Alarm" 1 3 0 255 [(0, "DEACTIVATION - no response to alarm frames"); (1, "ALARM RELAY ON - relay will turn ON upon receipt of alarm frame"); (2, "ALARM RELAY OFF - relay will turn OFF upon receipt of alarm frame"); (3, "ALARM FLASHING - relay will turn ON and OFF periodically (see param.39")]; mkJP 43 "Relay 2: Response to Temperature Alarm" 1 1 0 255 [(0, "DEACTIVATION - no response to alarm frames"); (1, "ALARM RELAY ON - relay will turn ON upon receipt of alarm frame"); (2, "ALARM RELAY OFF - relay will turn OFF upon receipt of alarm frame"); (3, "ALARM FLASHING - relay will turn ON and OFF periodically (see param.39")]].
Definition fpar193 : list jparam := [mkJP 1 "Activate / deactivate functions ALL ON / ALL  OFF" 1 255 0 255 [(0, "ALL ON is not active ALL OFF is not active"); (1, "ALL ON is not active ALL OFF active"); (2, "ALL ON active ALL OFF is not active"); (255, "ALL ON active, ALL OFF active")]; mkJP 3 "Auto off relay after specified time" 1 0 0 255 [(0, "Manual override disabled"); (1, "Manual override enabled. ")]; mkJP 4 "Auto off for relay 1" 2 0 0 65535 []; mkJP 5 "Auto off for relay 2" 2 0 0 65535 []; mkJP 6 "Sending commands to group 1 devices" 1 0 0 255 [(0, "Commands are sent when device is turned on and off"); (1, "Commands sent when device off with memorized state"); (2, "Commands are sent when device is turned off")]; mkJP 7 "Sending commands to group 2 devices" 1 0 0 255 [(0, "Commands are sent when device is turned on and off"); (1, "Commands sent when device off with memorized state"); (2, "Commands are sent when device is turned off")]; mkJP 13 "Assigns bistable key status to the device status" 1 0 0 255 [(0, "[On / Off] device changes status on key status change"); (1, "Device status depends on key status")]; mkJP 14 "Switch type connector" 1 1 0 255 [(0, "Momentary switch"); (1, "Toggle switch")]; mkJP 15 "Operation of the Dimmer and Roller Shutter Controller" 1 0 0 255 [(0, "Dimmer/Roller Shutter Controller control is not active"); (1, "Dimmer/Roller Shutter Controller control is active")]; mkJP 16 "Saving the state of the device after a power failure" 1 1 0 255 [(0, "Fibaro Switch does not save the state after a power failure"); (1, "Fibaro Switch saves its state before power failure")]; mkJP 30 "Relay 1: Response to General Alarm" 1 3 0 255 [(0, "Alarm deactivation relay 1"); (1, "Alarm relay 1 on"); (2, "Alarm Relay 1 off"); (3, "Alarm relay 1 flashing")]; mkJP 31 "Relay 1: Response to Water Flood Alarm" 1 2 0 255 [(0, "Alarm deactivation relay 1"); (1, "Alarm relay 1 on"); (2, "Alarm relay 1 off"); (3, "Alarm relay 1 flashing")]; mkJP 32 "Relay 1: Response to Smoke, CO, CO2 Alarm" 1 3 0 255 [(0, "Alarm deactivation relay 1"); (1, "Alarm relay 1 on"); (2, "Alarm relay 1 off"); (3, "Alarm relay 1 flashing")]; mkJP 33 "Relay 1: Response to Temperature Alarm" 1 1 0 255 [(0, "Alarm deactivation relay 1"); (1, "Alarm relay 1 on"); (2, "Alarm relay 1 off"); (3, "Alarm relay 1 flashing")]; mkJP 39 "ALARM FLASHING alarm time" 2 600 0 65535 []; mkJP 40 "Relay 2: Response to General Alarm" 1 3 0 255 [(0, "Alarm deactivation relay 2"); (1, "Alarm relay 2 on"); (2, "Alarm relay 2 off"); (3, "Alarm relay 2 flashing")]; mkJP 41 "Relay 2: Response to Water Flood Alarm" 1 2 0 255 [(0, "Alarm deactivation relay 2"); (1, "Alarm relay 2 on"); (2, "Alarm relay 2 off"); (3, " Alarm relay 2 flashing")]; mkJP 42 "Relay 2: Response to Smoke, CO, CO2 Alarm" 1 3 0 255 [(0, "Alarm deactivation relay 2"); (1, " Alarm relay 2 on"); (2, "Alarm relay 2 off"); (3, "Alarm relay 2 flashing")]; mkJP 43 "Relay 2: Response to Temperature Alarm" 1 1 0 255 [(0, "Alarm deactivation relay 2"); (1, "Alarm relay 2 on"); (2, "Alarm relay 2 off"); (3, "Alarm relay 2 flashing")]].
Definition fpar194 : list jparam := [mkJP 1 "Enable/Disable ALL ON/OFF" 1 255 0 255 [((-1), "ALL ON active / ALL OFF active"); (0, "ALL ON disabled/ ALL OFF disabled"); (1, "ALL ON disabled/ ALL OFF active"); (2, "ALL ON active / ALL OFF disabled")]; mkJP 3 "Override OFF-delay" 1 0 0 1 [(0, "Turn off with push button disabled in auto off interval"); (1, "Turn off with push button enabled in auto off interval")]; mkJP 4 "Relay 1: OFF-delay time (100ms steps)" 2 0 0 65535 []; mkJP 5 "Relay 2: OFF-delay time (100ms steps)" 2 0 0 65535 []; mkJP 6 "Separation of association sending (key 1)" 1 0 0 255 [(0, "Commands are sent when device is turned on and off."); (1, "Commands sent when turned off, double-click sends 'turn on', dimmers a"); (2, "Map OFF status to all devices in group 1, Double click on key 1 will s")]; mkJP 7 "Control key #2 behaviour" 1 1 0 255 [(0, "Commands are sent when device is turned on and off."); (1, "Commands sent when turned off, double-click sends 'turn on', dimmers a"); (2, "Commands are sent when device is turned off, double-click sends 'turn ")]; mkJP 13 "Inputs behaviour" 1 0 0 255 [(0, "Toggle"); (1, "Follow switch contact (closed=ON, open=OFF)")]; mkJP 14 "Inputs Button/Switch configuration" 1 1 0 255 [(0, "Mono-stable input (button)"); (1, "Bi-stable input (switch)")]; mkJP 15 "Dimmer/Roller shutter control" 1 0 0 255 [(0, "Disable Dimmer/Roller shutter control"); (1, "Enable Dimmer/Roller shutter control")]; mkJP 16 "Saving state before power failure" 1 1 0 255 [(0, "State NOT saved at power failure, all outputs are set to OFF upon powe"); (1, "State saved at power failure, all outputs are set to previous state up")]; mkJP 30 "Relay 1: Response to General Alarm" 1 3 0 255 [(0, "DEACTIVATION - no response to alarm frames"); (1, "ALARM RELAY ON - relay will turn ON upon receipt of alarm frame"); (2, "ALARM RELAY OFF - relay will turn OFF upon receipt of alarm frame"); (3, "ALARM FLASHING - relay will turn ON and OFF periodically (see param.39")]; mkJP 31 "Relay 1: Response to Water Flood Alarm" 1 2 0 255 [(0, "DEACTIVATION - no response to alarm frames"); (1, "ALARM RELAY ON - relay will turn ON upon receipt of alarm frame"); (2, "ALARM RELAY OFF - relay will turn OFF upon receipt of alarm frame"); (3, "ALARM FLASHING - relay will turn ON and OFF periodically (see param.39")]; mkJP 32 "Relay 1: Response to Smoke, CO, CO2 Alarm" 1 3 0 255 [(0, "DEACTIVATION - no response to alarm frames"); (1, "ALARM RELAY ON - relay will turn ON upon receipt of alarm frame"); (2, "ALARM RELAY OFF - relay will turn OFF upon receipt of alarm frame"); (3, "ALARM FLASHING - relay will turn ON and OFF periodically (see param.39")]; mkJP 33 "Relay 1: Response to Temperature Alarm" 1 1 0 255 [(0, "DEACTIVATION - no response to alarm frames"); (1, "ALARM RELAY ON - relay will turn ON upon receipt of alarm frame"); (2, "ALARM RELAY OFF - relay will turn OFF upon receipt of alarm frame"); (3, "ALARM FLASHING - relay will turn ON and OFF periodically (see param.39")]; mkJP 39 "ALARM FLASHING alarm time" 2 600 0 65535 []; mkJP 40 "Relay 2: Response to General Alarm" 1 3 0 255 [(0, "DEACTIVATION - no response to alarm frames"); (1, "ALARM RELAY ON - relay will turn ON upon receipt of alarm frame"); (2, "ALARM RELAY OFF - relay will turn OFF upon receipt of alarm frame"); (3, "ALARM FLASHING - relay will turn ON and OFF periodically (see param.39")]; mkJP 41 "Relay 2: Response to Water Flood Alarm" 1 2 0 255 [(0, "DEACTIVATION - no response to alarm frames"); (1, "ALARM RELAY ON - relay will turn ON upon receipt of alarm frame"); (2, "ALARM RELAY OFF - relay will turn OFF upon receipt of alarm frame"); (3, "ALARM FLASHING - relay will turn ON and OFF periodically (see param.39")]; mkJP 42 "Relay 2: Response to Smoke, CO, CO2 Alarm" 1 3 0 255 [(0, "DEACTIVATION - no response to alarm frames"); (1, "ALARM RELAY ON - relay will turn ON upon receipt of alarm frame"); (2, "ALARM RELAY OFF - relay will turn OFF upon receipt of alarm frame"); (3, "ALARM FLASHING - relay will turn ON and OFF periodically (see param.39")]; mkJP 43 "Relay 2: Response to Temperature Alarm" 1 1 0 255 [(0, "DEACTIVATION - no response to alarm frames"); (1, "ALARM RELAY ON - relay will turn ON upon receipt of alarm frame"); (2, "ALARM RELAY OFF - relay will turn OFF upon receipt of alarm frame"); (3, "ALARM FLASHING - relay will turn ON and OFF periodically (see param.39")]].
Definition fpar195 : list jparam := [mkJP 9 "Restore state after power failure" 1 1 0 1 [(0, "off after power loss"); (1, "restore last state")]; mkJP 10 "First channel operating mode" 1 0 0 5 [(0, "standard operation"); (1, "delay ON"); (2, "delay OFF"); (3, "auto ON"); (4, "auto OFF"); (5, "flashing mode")]; mkJP 11 "1st ch. reaction to switch" 1 0 0 2 [(0, "cancel mode and set target state"); (1, "no reaction to switch - mode runs until it ends"); (2, "reset timer - start counting from the beginning")]; mkJP 12 "time parameter for delay/auto ON/OFF modes" 2 50 0 32000 []; mkJP 13 "1st ch. pulse time for flashing mode" 2 5 1 32000 []; mkJP 15 "2nd ch. operating mode" 1 0 0 5 [(0, "standard operation"); (1, "delay ON"); (2, "delay OFF"); (3, "auto ON"); (4, "auto OFF"); (5, "flashing mode")]; mkJP 16 "2nd ch. reaction to switch" 1 0 0 2 [(0, "cancel mode and set target state"); (1, "no reaction to switch - mode runs until it ends"); (2, "reset timer - start counting from the beginning")]; mkJP 17 "2nd ch. time parameter for delay" 2 50 0 32000 []; mkJP 18 "2nd ch. pulse time for flashing mode" 2 5 1 32000 []; mkJP 20 "Switch type" 1 2 0 2 [(0, "momentary switch"); (1, "toggle switch stable"); (2, "toggle switch")]; mkJP 21 "Flashing mode - reports" 1 0 0 1 [(0, "the device does not send reports"); (1, "the device sends reports")]; mkJP 27 "Associations in Z-Wave network security mode" 1 15 1 15 [(0, "no group sent as secure"); (1, "2nd group sent as secure"); (2, "3rd group sent as secure"); (4, "4th group sent as secure"); (8, "5th group sent as secure"); (15, "all groups sent as secure")]; mkJP 28 "S1 switch - scenes sent" 1 0 0 15 [(0, "no scenes sent"); (1, "Key pressed 1 time"); (2, "Key pressed 2 times"); (4, "Key pressed 3 times"); (8, "Key Hold Down and Key Released")]; mkJP 29 "S2 switch - scenes sent" 1 0 0 15 [(0, "no scenes sent"); (1, "Key pressed 1 time"); (2, "Key pressed 2 times"); (4, "Key pressed 3 times"); (8, "Key Hold Down and Key Released")]; mkJP 30 "S1 assocs. sent to 2nd and 3rd group" 1 0 0 15 [(0, "All actions are active by default"); (1, "ignore turning ON with 1 click of the switch"); (2, "ignore turning OFF with 1 click of the switch"); (4, "ignore holding and releasing the switch"); (8, "ignore double click of the switch")]; mkJP 31 "S1 ON val sent to 2nd and 3rd groups" 2 255 0 255 []; mkJP 32 "S1 OFF val sent to 2nd and 3rd groups" 2 0 0 255 []; mkJP 33 "S1 DblClick val sent to 2nd and 3rd groups" 2 99 0 255 []; mkJP 35 "S2 assocs. sent to 4th and 5th group" 1 0 0 15 [(0, "All actions are active by default"); (1, "ignore turning on with 1 click of the switch"); (2, "ignore turning off with 1 click of the switch"); (4, "ignore holding and releasing the switch"); (8, "ignore double click of the switch")]; mkJP 36 "S2 ON val sent to 4th and 5th groups" 2 255 0 255 []; mkJP 36 "S2 ON val sent to 4th and 5th groups" 2 255 0 255 []; mkJP 37 "S2 OFF val sent to 4th and 5th groups" 2 0 0 255 []; mkJP 38 "S2 DblClick val sent to 4th and 5th groups" 2 99 0 255 []; mkJP 40 "Reaction to General Alarm" 1 3 0 3 [(0, "alarm frame is ignored"); (1, "turn ON after receiving the alarm frame"); (2, "turn OFF after receiving the alarm frame"); (3, "flash after receiving the alarm frame")]; mkJP 41 "Reaction to Flood Alarm" 1 2 0 3 [(0, "alarm frame is ignored"); (1, "turn ON after receiving the alarm frame"); (2, "turn OFF after receiving the alarm frame"); (3, "flash after receiving the alarm frame")]; mkJP 42 "Reaction to CO/CO2/Smoke Alarm" 1 3 0 3 [(0, "alarm frame is ignored"); (1, "turn ON after receiving the alarm frame"); (2, "turn OFF after receiving the alarm frame"); (3, "flash after receiving the alarm frame")]; mkJP 43 "Reaction to Heat Alarm" 1 1 0 3 [(0, "alarm frame is ignored"); (1, "turn ON after receiving the alarm frame"); (2, "turn OFF after receiving the alarm frame"); (3, "flash after receiving the alarm frame")]; mkJP 44 "Flashing alarm duration" 2 600 1 32000 []; mkJP 50 "First channel - power reports" 1 20 0 100 []; mkJP 51 "1st ch min time between reports" 1 10 0 120 []; mkJP 53 "1st ch energy reports" 2 100 0 32000 []; mkJP 54 "Second channel - power reports" 1 20 0 100 []; mkJP 55 "2nd ch min time between reports" 1 10 0 120 []; mkJP 57 "2nd ch energy reports" 2 100 0 32000 []; mkJP 58 "Periodic power reports" 2 3600 0 32000 []; mkJP 59 "Periodic energy reports" 2 3600 0 32000 []; mkJP 60 "Include own energy" 1 0 0 1 [(0, "function inactive"); (1, "function active")]].
Definition fpar196 : list jparam := [mkJP 1 "Smoke Sensor sensitivity" 1 2 0 255 [(1, "HIGH Sensitivity"); (2, "MEDIUM Sensitivity"); (3, "LOW Sensitivity")]; mkJP 2 "Z-Wave notifications status" 1 0 0 255 [(0, "All notifications disabled"); (1, "Enclosure opening notification enabled"); (2, "Exceeding temperature threshold notification enabled"); (3, "All notifications enabled")]; mkJP 3 "Visual indicator notifications status" 1 0 0 255 [(0, "All notifications disabled"); (1, "Enclosure opening notification enabled"); (2, "Exceeding temperature threshold notification enabled"); (3, "Enclosure opening notification enabled +"); (4, "Lack of Z-Wave range notification"); (5, "Enclosure opening notification enabled +"); (6, "Exceeding temperature threshold notification enabled + "); (7, "Enclosure opening notification enabled + ")]; mkJP 4 "Sound notifications status" 1 0 0 255 [(0, "All notifications disabled"); (1, "Enclosure opening notification enabled"); (2, "Exceeding temperature threshold notification enabled"); (3, "Enclosure opening notification enabled +"); (4, "Lack of Z-Wave range notification"); (5, "Enclosure opening notification enabled + "); (6, "Exceeding temperature threshold notification enabled +"); (7, "Enclosure opening notification enabled + ")]; mkJP 10 "Configuration of control frames in BASIC command class" 1 0 0 255 [(0, "BASIC ON and BASIC OFF enabled"); (1, "BASIC ON enabled "); (2, "BASIC OFF enabled")]; mkJP 11 "BASIC ON frame value" 2 255 1 255 []; mkJP 12 "BASIC OFF frame value" 2 255 1 255 []; mkJP 13 "Alarm broadcast" 1 0 0 255 [(0, "broadcast inactive"); (1, "FIRE ALARM broadcast (2-nd and 4-th Association Group) ..."); (2, "FIRE ALARM broadcast (2-nd and 4-th Association Group) ..."); (3, "FIRE ALARM broadcast (2-nd and 4-th Association Group) ...")]; mkJP 20 "Temperature report interval" 2 1 0 8640 []; mkJP 21 "Temperature report hysteresis" 1 10 1 100 []; mkJP 30 "Temperature threshold" 1 55 1 100 []; mkJP 31 "Excess temperature signaling interval" 2 1 1 8640 []; mkJP 32 "Lack of Z-Wave range indication interval" 2 180 1 8640 []].
Definition fpar197 : list jparam := [mkJP 1 "Alarm Cancellation Delay" 2 0 0 3600 []; mkJP 2 "Acoustic and visual signals On / Off in case of alarm" 1 3 0 255 [(0, "acoustic and visual alarms inactive"); (1, "acoustic alarm inactive, visual alarm active"); (2, "acoustic alarm active, visual alarm inactive"); (3, "acoustic and visual alarms active")]; mkJP 5 "Type of alarm frame sent to 1-st association group (SMOKE)" 1 (-127) 0 255 [((-127), "BASIC_SET"); (0, "ALARM SENSOR (SMOKE)")]; mkJP 7 "Forced Level of Dimming group 1" 1 255 1 255 []; mkJP 10 "Interval between successive readings of temperature sensors" 2 300 1 32767 []; mkJP 12 "Insensitiveness to temperature changes." 1 20 0 100 []; mkJP 13 "Transmitting the alarm or control frame broadcast mode" 1 0 0 255 [(0, "Broadcast inactive"); (1, "Smoke broadcast mode active, Tamper broadcast mode inactive"); (2, "Smoke broadcast mode inactive, Tamper broadcast mode active"); (3, "Smoke and Tamper broadcast mode active")]; mkJP 73 "Temperature measurement compensation" 2 0 (-1000) 1000 []; mkJP 80 "Z-Wave range test interval" 1 1 0 255 []; mkJP 81 "Temperature alarm threshold" 1 54 0 255 []; mkJP 82 "Smoke Sensor sensitivity" 1 2 0 255 [(1, "High"); (2, "Medium"); (3, "Low")]; mkJP 83 "Black Box sensitivity level" 1 0 0 255 [(1, "High"); (2, "Medium"); (3, "Low")]; mkJP 84 "Malfunction alarm" 1 10 (-126) 127 []; mkJP 85 "Temperature alarm" 1 5 (-126) 127 []; mkJP 86 "Lack of the Z-Wave range alarm" 2 360 1 17280 []; mkJP 87 "Low battery alarm" 2 360 1 17280 []; mkJP 88 "Temperature measurement compensation for report" 1 0 0 255 [(0, "Ignore temperature compensation"); (1, "Include temperature compensation")]; mkJP 89 "Tamper alarm" 1 1 0 255 [(0, "Tamper alarm inactive"); (1, "Tamper alarm active, with cancellation option available"); (2, "Tamper alarm active, without cancellation option")]].
Definition fpar198 : list jparam := [mkJP 1 "Alarm Cancellation Delay" 2 0 0 3600 []; mkJP 2 "Acoustic and visual signals On / Off in case of alarm" 1 3 0 255 [(0, "acoustic and visual alarms inactive"); (1, "acoustic alarm inactive, visual alarm active"); (2, "acoustic alarm active, visual alarm inactive"); (3, "acoustic and visual alarms active")]; mkJP 5 "Type of alarm frame sent to 1-st association group (SMOKE)" 1 (-127) 0 255 [((-127), "BASIC_SET"); (0, "ALARM SENSOR (SMOKE)")]; mkJP 7 "Forced Level of Dimming group 1" 1 255 1 255 []; mkJP 10 "Interval between successive readings of temperature sensors" 2 300 1 32767 []; mkJP 12 "Insensitiveness to temperature changes." 1 20 0 100 []; mkJP 13 "Transmitting the alarm or control frame broadcast mode" 1 0 0 255 [(0, "Broadcast inactive"); (1, "Smoke broadcast mode active, Tamper broadcast mode inactive"); (2, "Smoke broadcast mode inactive, Tamper broadcast mode active"); (3, "Smoke and Tamper broadcast mode active")]; mkJP 73 "Temperature measurement compensation" 2 0 (-1000) 1000 []; mkJP 80 "Z-Wave range test interval" 1 1 0 255 []; mkJP 81 "Temperature alarm threshold" 1 54 0 255 []; mkJP 82 "Smoke Sensor sensitivity" 1 2 0 255 [(1, "High"); (2, "Medium"); (3, "Low")]; mkJP 83 "Black Box sensitivity level" 1 0 0 255 [(1, "High"); (2, "Medium"); (3, "Low")]; mkJP 84 "Malfunction alarm" 1 10 (-126) 127 []; mkJP 85 "Temperature alarm" 1 5 (-126) 127 []; mkJP 86 "Lack of the Z-Wave range alarm" 2 360 1 17280 []; mkJP 87 "Low battery alarm" 2 360 1 17280 []; mkJP 88 "Temperature measurement compensation for report" 1 0 0 255 [(0, "Ignore temperature compensation"); (1, "Include temperature compensation")]; mkJP 89 "Tamper alarm" 1 1 0 255 [(0, "Tamper alarm inactive"); (1, "Tamper alarm active, with cancellation option available"); (2, "Tamper alarm active, without cancellation option")]].
Definition fpar199 : list jparam := [mkJP 1 "Always on function" 1 0 0 255 [(0, "Activated"); (1, "Inactive")]; mkJP 16 "Remember device status after power failure" 1 1 0 255 [(0, "Do not remember state"); (1, "Remember state before power failure")]; mkJP 34 "Reaction to alarms" 1 63 0 63 []; mkJP 35 "Response to alarms" 1 0 0 255 [(0, "No reaction"); (1, "Turn ON"); (2, "Turn OFF"); (3, "Cycle ON/OFF")]; mkJP 39 "Alarm duration" 2 600 1 65535 []; mkJP 40 "Immediate power report" 1 80 1 100 []; mkJP 42 "Standard power load report" 1 15 1 100 []; mkJP 43 "Power reporting frequency" 1 30 1 255 []; mkJP 45 "Reporting Changes in energy consumed by controlled devices" 1 1 1 255 []; mkJP 47 "Time Period between reports on power and energy consumption" 2 3600 1 65534 []; mkJP 49 "Metering energy consumed by the Wall Plug itself." 1 0 0 255 [(0, "Inactive"); (1, "Activated")]; mkJP 50 "DOWN value" 2 300 0 65535 []; mkJP 51 "UP value" 2 500 0 65535 []; mkJP 52 "Action in case defined power values exceeded" 1 6 0 255 [(0, "Function inactive"); (1, "Turn devices ON when power below DOWN"); (2, "Turn devices OFF when power below DOWN"); (3, "Turn devices ON when power above UP"); (4, "Turn devices OFF when power above UP"); (5, "Turn devices ON when power below DOWN and off ..."); (6, "Turn devices OFF when power below DOWN ...")]; mkJP 60 "Power load to make red ring flash violet" 2 25000 0 65535 []; mkJP 61 "LED color when device is on" 1 1 0 255 [(0, "LED will use predefined steps depending on power"); (1, "LED will use continuous color depending on power"); (2, "White illumination"); (3, "Red illumination"); (4, "Green illumination"); (5, "Blue illumination"); (6, "Yellow illumination"); (7, "Cyan illumination"); (8, "Magenta illumination"); (9, "NO illumination")]; mkJP 62 "LED color when device is off" 1 8 0 255 [(0, "LED ring is illuminated with a color corresponding to ..."); (1, "White illumination"); (2, "Red illumination"); (3, "Green illumination"); (4, "Blue illumination"); (5, "Yellow illumination"); (6, "Cyan illumination"); (7, "Magenta illumination"); (8, "NO illumination")]; mkJP 63 "LED color when Z Wave alarm" 1 1 0 255 [(0, "No change in color"); (1, "LED flashes RED BLUE WHITE"); (2, "White illumination"); (3, "Red illumination"); (4, "Green illumination"); (5, "Blue illumination"); (6, "Yellow illumination"); (7, "Cyan illumination"); (8, "Magenta illumination"); (9, "NO illumination")]; mkJP 70 "Overload safety switch" 2 65535 0 65535 []].
Definition fpar200 : list jparam := [mkJP 1 "Always on function" 1 0 0 255 [(0, "Activated"); (1, "Inactive")]; mkJP 16 "Remember device status after power failure" 1 1 0 255 [(0, "Do not remember state"); (1, "Remember state before power failure")]; mkJP 34 "Reaction to alarms" 1 63 0 63 []; mkJP 35 "Response to alarms" 1 0 0 255 [(0, "No reaction"); (1, "Turn ON"); (2, "Turn OFF"); (3, "Cycle ON/OFF")]; mkJP 39 "Alarm duration" 2 600 1 65535 []; mkJP 40 "Immediate power report" 1 80 1 100 []; mkJP 42 "Standard power load report" 1 15 1 100 []; mkJP 43 "Power reporting frequency" 1 30 1 255 []; mkJP 45 "Reporting Changes in energy consumed by controlled devices" 1 1 1 255 []; mkJP 47 "Time Period between reports on power and energy consumption" 2 3600 1 65534 []; mkJP 49 "Metering energy consumed by the Wall Plug itself." 1 0 0 255 [(0, "Inactive"); (1, "Activated")]; mkJP 50 "DOWN value" 2 300 0 65535 []; mkJP 51 "UP value" 2 500 0 65535 []; mkJP 52 "Action in case defined power values exceeded" 1 6 0 255 [(0, "Function inactive"); (1, "Turn devices ON when power below DOWN"); (2, "Turn devices OFF when power below DOWN"); (3, "Turn devices ON when power above UP"); (4, "Turn devices OFF when power above UP"); (5, "Turn devices ON when power below DOWN and off when power above UP"); (6, "Turn devices OFF when power below DOWN and off when power above UP")]; mkJP 60 "Power load to make red ring flash violet" 2 25000 0 65535 []; mkJP 61 "LED color when device is on" 1 1 0 255 [(0, "LED will use predefined steps depending on power"); (1, "LED will use continuous color depending on power"); (2, "White illumination"); (3, "Red illumination"); (4, "Green illumination"); (5, "Blue illumination"); (6, "Yellow illumination"); (7, "Cyan illumination"); (8, "Magenta illumination"); (9, "NO illumination")]; mkJP 62 "LED color when device is off" 1 8 0 255 [(0, "LED will use predefined steps depending on the last power when on"); (1, "White illumination"); (2, "Red illumination"); (3, "Green illumination"); (4, "Blue illumination"); (5, "Yellow illumination"); (6, "Cyan illumination"); (7, "Magenta illumination"); (8, "NO illumination")]; mkJP 63 "LED color when Z Wave alarm" 1 1 0 255 [(0, "No change in color"); (1, "LED flashes RED BLUE WHITE"); (2, "White illumination"); (3, "Red illumination"); (4, "Green illumination"); (5, "Blue illumination"); (6, "Yellow illumination"); (7, "Cyan illumination"); (8, "Magenta illumination"); (9, "NO illumination")]; mkJP 70 "Overload safety switch" 2 65535 0 65535 []].
Definition fpar201 : list jparam := [mkJP 1 "Always on function" 1 0 0 255 [(0, "Activated"); (1, "Inactive")]; mkJP 16 "Remember device status after power failure" 1 1 0 255 [(0, "Do not remember state"); (1, "Remember state before power failure")]; mkJP 34 "Reaction to alarms" 1 63 0 63 []; mkJP 35 "Response to alarms" 1 0 0 255 [(0, "No reaction"); (1, "Turn ON"); (2, "Turn OFF"); (3, "Cycle ON/OFF")]; mkJP 39 "Alarm duration" 2 600 1 65535 []; mkJP 40 "Immediate power report" 1 80 1 100 []; mkJP 42 "Standard power load report" 1 15 1 100 []; mkJP 43 "Power reporting frequency" 1 30 1 255 []; mkJP 45 "Reporting Changes in energy consumed by controlled devices" 1 1 1 255 []; mkJP 47 "Time Period between reports on power and energy consumption" 2 3600 1 65534 []; mkJP 49 "Metering energy consumed by the Wall Plug itself." 1 0 0 255 [(0, "Inactive"); (1, "Activated")]; mkJP 50 "DOWN value" 2 300 0 65535 []; mkJP 51 "UP value" 2 500 0 65535 []; mkJP 52 "Action in case defined power values exceeded" 1 6 0 255 [(0, "Function inactive"); (1, "Turn devices ON when power below DOWN"); (2, "Turn devices OFF when power below DOWN"); (3, "Turn devices ON when power above UP"); (4, "Turn devices OFF when power above UP"); (5, "Turn devices ON when power below DOWN and off when power above UP"); (6, "Turn devices OFF when power below DOWN and off when power above UP")]; mkJP 60 "Power load to make red ring flash violet" 2 25000 0 65535 []; mkJP 61 "LED color when device is on" 1 1 0 255 [(0, "LED will use predefined steps depending on power"); (1, "LED will use continuous color depending on power"); (2, "White illumination"); (3, "Red illumination"); (4, "Green illumination"); (5, "Blue illumination"); (6, "Yellow illumination"); (7, "Cyan illumination"); (8, "Magenta illumination"); (9, "NO illumination")]; mkJP 62 "LED color when device is off" 1 8 0 255 [(0, "LED will use predefined steps depending on the last power when on"); (1, "White illumination"); (2, "Red illumination"); (3, "Green illumination"); (4, "Blue illumination"); (5, "Yellow illumination"); (6, "Cyan illumination"); (7, "Magenta illumination"); (8, "NO illumination")]; mkJP 63 "LED color when Z Wave alarm" 1 1 0 255 [(0, "No change in color"); (1, "LED flashes RED BLUE WHITE"); (2, "White illumination"); (3, "Red illumination"); (4, "Green illumination"); (5, "Blue illumination"); (6, "Yellow illumination"); (7, "Cyan illumination"); (8, "Magenta illumination"); (9, "NO illumination")]; mkJP 70 "Overload safety switch" 2 65535 0 65535 []].
Definition fpar202 : list jparam := [].
Definition fpar203 : list jparam := [mkJP 1 "“Always On” mode" 1 0 0 1 [(0, "function inactive"); (1, "function activated")]; mkJP 2 "Remember device status before the power failure" 1 1 0 1 [(0, "device remains switched off"); (1, "device restores the state from before the power failure")]; mkJP 3 "Overload safety switch" 2 0 10 30000 [(0, "function inactive")]; mkJP 10 "High priority power report" 1 80 1 100 []; mkJP 11 "Standard power report" 1 15 1 100 []; mkJP 12 "Power reporting interval" 2 30 5 600 []; mkJP 13 "Energy reporting threshold" 2 10 0 500 [(0, "energy reports inactive")]; mkJP 14 "Power and energy periodic reports" 2 3600 5 32400 [(0, "periodic reports inactive")]; mkJP 15 "Measuring energy consumed by the Wall Plug itself" 1 0 0 1 [(0, "function inactive"); (1, "function activated")]; mkJP 20 "Control of „On/Off (Button)” association group (2)" 1 0 0 1 [(0, "control as the Wall Plug"); (1, "control opposite to the Wall Plug")]; mkJP 21 "DOWN value - „On/Off (Power)” association group (3)" 2 300 0 24900 []; mkJP 22 "UP value - „On/Off (Power)” association group (3)" 2 500 100 25000 []; mkJP 23 "The response after exceeding defined power values" 1 6 1 6 [(1, "turn the associated devices ON (DOWN)"); (2, "turn the associated devices OFF (DOWN)"); (3, "turn the associated devices ON (UP)"); (4, "turn the associated devices OFF (UP)"); (5, "combination of 1 and 4"); (6, "combination of 2 and 3")]; mkJP 24 "SWITCH ON value - „On/Off” association groups" 2 255 0 99 [(255, "Default")]; mkJP 30 "Active alarms" 1 63 1 63 [(1, "general alarm"); (2, "smoke alarm"); (4, "CO alarm"); (8, "CO2 alarm"); (16, "high temperature alarm"); (32, "flood alarm"); (63, "All")]; mkJP 31 "Response to alarm frames" 1 0 5 50 [(0, "no reaction"); (1, "turn connected device on"); (2, "turn connected device off")]; mkJP 32 "Alarm state duration" 2 600 1 32400 []; mkJP 40 "Power load for violet colour" 2 25000 1000 30000 []; mkJP 41 "LED ring colour when controlled device is on" 1 1 0 9 [(0, "illumination turned off completely"); (1, "colour changes continuously depending on active power"); (2, "colour changes in steps depending on active power"); (3, "white"); (4, "red"); (5, "green"); (6, "blue"); (7, "yellow"); (8, "cyan"); (9, "magenta")]; mkJP 42 "LED ring colour when controlled device is off" 1 0 0 9 [(0, "illumination turned off completely"); (1, "LED ring is illuminated"); (3, "white"); (4, "red"); (5, "green"); (6, "blue"); (7, "yellow"); (8, "cyan"); (9, "magenta")]; mkJP 43 "LED ring colour at the Z-Wave network alarm detection" 1 2 1 9 [(0, "illumination turned off completely"); (1, "no change in colour"); (2, "LED ring flashes red/blue/white"); (3, "white"); (4, "red"); (5, "green"); (6, "blue"); (7, "yellow"); (8, "cyan"); (9, "magenta")]; mkJP 50 "Associations in Z-Wave network security mode" 1 3 0 3 [(0, "none of the groups sent as secure"); (1, "2nd group sent as secure"); (2, "3rd group sent as secure"); (3, "2nd and 3rd group sent as secure")]].
Definition fpar204 : list jparam := [mkJP 1 "Always on function" 1 0 0 255 [(0, "Activated"); (1, "Inactive")]; mkJP 16 "Remember device status after power failure" 1 1 0 255 [(0, "Do not remember state"); (1, "Remember state before power failure")]; mkJP 34 "Reaction to alarms" 1 63 0 63 []; mkJP 35 "Response to alarms" 1 0 0 255 [(0, "No reaction"); (1, "Turn ON"); (2, "Turn OFF"); (3, "Cycle ON/OFF")]; mkJP 39 "Alarm duration" 2 600 1 65535 []; mkJP 40 "Immediate power report" 1 80 1 100 []; mkJP 42 "Standard power load report" 1 15 1 100 []; mkJP 43 "Power reporting frequency" 1 30 1 255 []; mkJP 45 "Reporting Changes in energy consumed by controlled devices" 1 1 1 255 []; mkJP 47 "Time Period between reports on power and energy consumption" 2 3600 1 65534 []; mkJP 49 "Metering energy consumed by the Wall Plug itself." 1 0 0 255 [(0, "Inactive"); (1, "Activated")]; mkJP 50 "DOWN value" 2 300 0 65535 []; mkJP 51 "UP value" 2 500 0 65535 []; mkJP 52 "Action in case defined power values exceeded" 1 6 0 255 [(0, "Function inactive"); (1, "Turn devices ON when power below DOWN"); (2, "Turn devices OFF when power below DOWN"); (3, "Turn devices ON when power above UP"); (4, "Turn devices OFF when power above UP"); (5, "Turn devices ON when power below DOWN and off when power above UP"); (6, "Turn devices OFF when power below DOWN and off when power above UP")]; mkJP 60 "Power load to make red ring flash violet" 2 25000 0 65535 []; mkJP 61 "LED color when device is on" 1 1 0 255 [(0, "LED will use predefined steps depending on power"); (1, "LED will use continuous color depending on power"); (2, "White illumination"); (3, "Red illumination"); (4, "Green illumination"); (5, "Blue illumination"); (6, "Yellow illumination"); (7, "Cyan illumination"); (8, "Magenta illumination"); (9, "NO illumination")]; mkJP 62 "LED color when device is off" 1 8 0 255 [(0, "LED will use predefined steps depending on the last power when on"); (1, "White illumination"); (2, "Red illumination"); (3, "Green illumination"); (4, "Blue illumination"); (5, "Yellow illumination"); (6, "Cyan illumination"); (7, "Magenta illumination"); (8, "NO illumination")]; mkJP 63 "LED color when Z Wave alarm" 1 1 0 255 [(0, "No change in color"); (1, "LED flashes RED BLUE WHITE"); (2, "White illumination"); (3, "Red illumination"); (4, "Green illumination"); (5, "Blue illumination"); (6, "Yellow illumination"); (7, "Cyan illumination"); (8, "Magenta illumination"); (9, "NO illumination")]; mkJP 70 "Overload safety switch" 2 65535 0 65535 []].
Definition fpar205 : list jparam := [mkJP 9 "Restore state after power failure" 1 1 0 1 [(0, "off after power loss"); (1, "restore last state")]; mkJP 10 "First channel operating mode" 1 0 0 5 [(0, "standard operation"); (1, "delay ON"); (2, "delay OFF"); (3, "auto ON"); (4, "auto OFF"); (5, "flashing mode")]; mkJP 11 "1st ch. reaction to switch" 1 0 0 2 [(0, "cancel mode and set target state"); (1, "no reaction to switch - mode runs until it ends"); (2, "reset timer - start counting from the beginning")]; mkJP 12 "time parameter for delay/auto ON/OFF modes" 2 50 0 32000 []; mkJP 13 "1st ch. pulse time for flashing mode" 2 5 1 32000 []; mkJP 15 "2nd ch. operating mode" 1 0 0 5 [(0, "standard operation"); (1, "delay ON"); (2, "delay OFF"); (3, "auto ON"); (4, "auto OFF"); (5, "flashing mode")]; mkJP 16 "2nd ch. reaction to switch" 1 0 0 2 []; mkJP 17 "2nd ch. time parameter for delay" 2 50 0 32000 []; mkJP 18 "2nd ch. pulse time for flashing mode" 2 5 1 32000 []; mkJP 20 "Switch type" 1 2 0 2 [(0, "momentary switch"); (1, "toggle switch stable"); (2, "toggle switch")]; mkJP 21 "Flashing mode - reports" 1 0 0 1 []; mkJP 27 "Associations in Z-Wave network security mode" 1 15 1 15 [(1, "2nd group sent as secure"); (2, "3rd group sent as secure"); (4, "4th group sent as secure"); (8, "5th group sent as secure"); (15, "all groups sent as secure")]; mkJP 28 "S1 switch - scenes sent" 1 0 0 8 [(0, "no scenes sent"); (1, "Key pressed 1 time"); (2, "Key pressed 2 times"); (4, "Key pressed 3 times"); (8, "Key Hold Down and Key Released")]; mkJP 29 "S2 switch - scenes sent" 1 0 0 8 []; mkJP 50 "First channel - power reports" 1 20 0 100 []; mkJP 54 "Second channel - power reports" 1 20 0 100 []].
Definition fpar206 : list jparam := [].
Definition fpar207 : list jparam := [mkJP 2 "Clear_Pulse_Meter_Counts" 1 0 0 255 [(0, "Clear Pulse Meter Counts")]; mkJP 3 "Trigger_Mapping" 1 0 0 255 [(0, "Disabled"); (1, "SIG1 triggered/untriggered sets or clears Relay1")]; mkJP 4 "Lower_Threshold_High" 1 187 0 255 [(187, "Default (0xBB)")]; mkJP 5 "Lower_Threshold_Low" 1 171 0 255 [(171, "Default (0xAB)")]; mkJP 6 "Upper_Threshold_High" 1 255 0 255 [(255, "Default (0xFF)")]; mkJP 7 "Upper_Threshold_Low" 1 254 0 255 [(254, "Default (0xFE)")]; mkJP 8 "Trigger_Level_And_Input_Threshold" 1 3 0 255 [(0, "ANALOG, trigger OUTSIDE of thresholds."); (1, "ANALOG, trigger BETWEEN thresholds."); (2, "DIGITAL, trigger OUTSIDE of thresholds."); (3, "DIGITAL, trigger BETWEEN thresholds.")]; mkJP 9 "Multilevel_AutoReport_Interval" 1 3 0 255 [(0, "Disable Automatic Reports"); (3, "Enable Reports every 30 seconds (Default)")]; mkJP 10 "Not_Used_2" 1 0 0 255 [(0, "Null")]; mkJP 11 "Momentary_Relay1_Duration" 1 0 0 255 [(0, "Disabled (Default)"); (5, "500 milliseconds")]].
Definition fpar208 : list jparam := [mkJP 1 "Delay before accept of Basic Set Off" 1 0 0 255 []].
Definition fpar209 : list jparam := [mkJP 0 "Mode" 1 0 0 255 [(0, "Alarm Mode"); (255, "Level Mode")]; mkJP 1 "WaterLevel Timeout" 2 60 1 32767 []].
Definition fpar210 : list jparam := [mkJP 1 "Low Temperature Trigger Point" 1 4 0 255 []; mkJP 2 "High Temperature Trigger Point" 1 70 0 255 []].
Definition fpar211 : list jparam := [mkJP 7 "Dimmer steps" 1 1 1 99 []; mkJP 8 "Time between dimmer steps" 1 3 1 255 []; mkJP 29 "Load sensing" 1 0 0 1 [(0, "disable (default)"); (1, "enable load sensing")]].
Definition fpar212 : list jparam := [mkJP 4 "Invert switch" 1 0 0 1 [(0, "Normal switch install"); (1, "Inverted switch")]; mkJP 29 "Load Sensing" 1 0 0 1 []].
Definition fpar213 : list jparam := [mkJP 4 "Invert Switch" 1 0 0 255 [(0, "No"); (1, "Yes")]; mkJP 7 "On/Off Command Dim Step" 1 1 1 99 []; mkJP 8 "On/Off Command Dim Rate" 1 3 1 255 []; mkJP 9 "Local Control Dim Step" 1 1 1 99 []; mkJP 10 "Local Control Dim Rate" 1 3 1 255 []; mkJP 11 "ALL ON/ALL OFF Dim Step" 1 1 1 99 []; mkJP 12 "ALL ON/ALL OFF Dim Rate" 1 3 1 255 []].
Definition fpar214 : list jparam := [].
Definition fpar215 : list jparam := [mkJP 3 "Night Light" 1 0 0 255 [(0, "LED on when switch is OFF"); (1, "LED on when switch is ON"); (2, "LED always off")]; mkJP 4 "Invert Switch" 1 0 0 255 [(0, "No"); (1, "Yes")]].
Definition fpar216 : list jparam := [].
Definition fpar217 : list jparam := [mkJP 3 "Night Light" 1 0 0 255 [(0, "LED on when switch is OFF"); (1, "LED on when switch is ON"); (2, "LED always off")]; mkJP 4 "Invert Switch" 1 0 0 255 [(0, "No"); (1, "Yes")]].
Definition fpar218 : list jparam := [mkJP 3 "Night Light" 1 0 0 255 [(0, "LED on when switch is OFF"); (1, "LED on when switch is ON"); (2, "LED always off")]; mkJP 4 "Invert Switch" 1 0 0 255 [(0, "No"); (1, "Yes")]; mkJP 5 "Ignore Start-Level (Receiving)" 1 0 0 255 [(0, "No"); (1, "Yes")]; mkJP 7 "On/Off Command Dim Step" 1 1 1 99 []; mkJP 8 "On/Off Command Dim Rate" 1 3 1 255 []; mkJP 9 "Local Control Dim Step" 1 1 1 99 []; mkJP 10 "Local Control Dim Rate" 1 3 1 255 []; mkJP 11 "ALL ON/ALL OFF Dim Step" 1 1 1 99 []; mkJP 12 "ALL ON/ALL OFF Dim Rate" 1 3 1 255 []].
Definition fpar219 : list jparam := [mkJP 3 "Night Light" 1 0 0 0 [(0, "LED on when switch is OFF"); (1, "LED on when switch is ON"); (2, "LED always off")]; mkJP 4 "Invert Switch" 1 0 0 0 [(0, "No"); (1, "Yes")]; mkJP 5 "Ignore Start-Level (Receiving)" 1 1 0 0 [(0, "No"); (1, "Yes")]; mkJP 7 "On/Off Command Dim Step" 1 1 1 99 []; mkJP 8 "On/Off Command Dim Rate" 1 3 1 255 []; mkJP 9 "Local Control Dim Step" 1 1 1 99 []; mkJP 10 "Local Control Dim Rate" 1 3 1 255 []; mkJP 11 "ALL ON/ALL OFF Dim Step" 1 1 1 99 []; mkJP 12 "ALL ON/ALL OFF Dim Rate" 1 3 1 255 []].
Definition fpar220 : list jparam := [mkJP 0 "" 0 0 0 0 []; mkJP 3 "Night Light" 1 0 0 255 [(0, "LED on when switch is OFF"); (1, "LED on when switch is ON"); (2, "LED always off")]; mkJP 4 "Invert Switch" 1 0 0 255 [(0, "No"); (1, "Yes")]].
Definition fpar221 : list jparam := [].
Definition fpar222 : list jparam := [mkJP 3 "Night Light" 1 0 0 255 [(0, "LED on when switch is OFF"); (1, "LED on when switch is ON"); (2, "LED always off")]; mkJP 4 "Invert Switch" 1 0 0 255 [(0, "No"); (1, "Yes")]; mkJP 5 "Ignore Start-Level (Receiving)" 1 0 0 255 [(0, "No"); (1, "Yes")]; mkJP 7 "On/Off Command Dim Step" 1 1 1 99 []; mkJP 8 "On/Off Command Dim Rate" 1 3 1 255 []; mkJP 9 "Local Control Dim Step" 1 1 1 99 []; mkJP 10 "Local Control Dim Rate" 1 3 1 255 []; mkJP 11 "ALL ON/ALL OFF Dim Step" 1 1 1 99 []; mkJP 12 "ALL ON/ALL OFF Dim Rate" 1 3 1 255 []].
Definition fpar223 : list jparam := [mkJP 3 "Night Light" 1 0 0 255 [(0, "LED on when switch is OFF"); (1, "LED on when switch is ON"); (2, "LED always off")]; mkJP 4 "Invert Switch" 1 0 0 255 [(0, "No"); (1, "Yes")]].
Definition fpar224 : list jparam := [mkJP 3 "Night Light" 1 0 0 255 [(0, "LED on when switch is OFF"); (1, "LED on when switch is ON"); (2, "LED always off")]; mkJP 4 "Invert Switch" 1 0 0 255 [(0, "No"); (1, "Yes")]].
Definition fpar225 : list jparam := [mkJP 3 "Night Light" 1 0 0 255 [(0, "LED on when switch is OFF"); (1, "LED on when switch is ON"); (2, "LED always off")]; mkJP 4 "Invert Switch" 1 0 0 255 [(0, "No"); (1, "Yes")]; mkJP 5 "Ignore Start-Level (Receiving)" 1 0 0 255 [(0, "No"); (1, "Yes")]; mkJP 7 "On/Off Command Dim Step" 1 1 1 99 []; mkJP 8 "On/Off Command Dim Rate" 1 3 1 255 []; mkJP 9 "Local Control Dim Step" 1 1 1 99 []; mkJP 10 "Local Control Dim Rate" 1 3 1 255 []; mkJP 11 "ALL ON/ALL OFF Dim Step" 1 1 1 99 []; mkJP 12 "ALL ON/ALL OFF Dim Rate" 1 3 1 255 []].
Definition fpar226 : list jparam := [mkJP 3 "Night Light" 1 0 0 255 [(0, "LED on when switch is OFF"); (1, "LED on when switch is ON"); (2, "LED is always OFF")]; mkJP 4 "Invert Switch" 1 0 0 255 [(0, "No"); (1, "Yes")]].
Definition fpar227 : list jparam := [mkJP 3 "LED light" 1 0 0 2 [(0, "reset to factory default"); (1, "LED is on when connected device is on"); (2, "LED is off at all times")]].
Definition fpar228 : list jparam := [].
Definition fpar229 : list jparam := [].
Definition fpar230 : list jparam := [mkJP 3 "LED light" 1 0 0 255 [(0, "LED on when switch is OFF"); (1, "LED on when switch is ON"); (2, "LED is always off")]].
Definition fpar231 : list jparam := [mkJP 3 "Night Light" 1 0 0 255 [(0, "LED on when switch is OFF"); (1, "LED on when switch is ON"); (2, "LED always off")]; mkJP 4 "Invert Switch" 1 0 0 255 [(0, "No"); (1, "Yes")]; mkJP 5 "Ignore Start-Level (Receiving)" 1 0 0 255 [(0, "No"); (1, "Yes")]; mkJP 7 "On/Off Command Dim Step" 1 1 1 99 []; mkJP 8 "On/Off Command Dim Rate" 1 3 1 255 []; mkJP 9 "Local Control Dim Step" 1 1 1 99 []; mkJP 10 "Local Control Dim Rate" 1 3 1 255 []; mkJP 11 "ALL ON/ALL OFF Dim Step" 1 1 1 99 []; mkJP 12 "ALL ON/ALL OFF Dim Rate" 1 3 1 255 []].
Definition fpar232 : list jparam := [mkJP 5 "Ignore Start-Level (Receiving)" 1 0 0 255 [(0, "No"); (1, "Yes")]; mkJP 7 "On/Off Command Dim Step" 1 1 1 99 []; mkJP 8 "On/Off Command Dim Rate" 1 3 1 255 []; mkJP 9 "Local Control Dim Step" 1 1 1 99 []; mkJP 10 "Local Control Dim Rate" 1 3 1 255 []; mkJP 11 "ALL ON/ALL OFF Dim Step" 1 1 1 99 []; mkJP 12 "ALL ON/ALL OFF Dim Rate" 1 3 1 255 []; mkJP 29 "Load Sensing" 1 0 0 255 [(0, "Load sensing is disabled"); (1, "Load sensing is enabled")]].
Definition fpar233 : list jparam := [mkJP 3 "Night Light" 1 0 0 255 [(0, "LED on when switch is OFF"); (1, "LED on when switch is ON"); (2, "LED always off")]; mkJP 4 "Invert Switch" 1 0 0 255 [(0, "No"); (1, "Yes")]].
Definition fpar234 : list jparam := [mkJP 3 "Night Light" 1 0 0 255 [(0, "LED on when switch is OFF"); (1, "LED on when switch is ON"); (2, "LED always off")]; mkJP 4 "Invert Switch" 1 0 0 255 [(0, "No"); (1, "Yes")]].
Definition fpar235 : list jparam := [].
Definition fpar236 : list jparam := [mkJP 13 "Motion Sensor" 1 3 1 3 [(1, "Low Sensitivity"); (2, "Medium Sensitivity"); (3, "High Sensitivity")]; mkJP 18 "PIR Timeout Duration" 1 60 1 60 [(1, "1 min to 60 min"); (255, "5 seconds")]; mkJP 20 "Basic Set, Notification and Basic Report" 1 1 1 255 [(1, "Motion Sensor will send out Notification"); (2, "Motion Sensor will send out Basic Set"); (3, "Motion Sensor will sendout Basic Report")]; mkJP 28 "Enable & Disable the LED indication when PIR is triggered" 1 1 0 1 [(0, "Disable"); (1, "Enable")]].
Definition fpar237 : list jparam := [].
Definition fpar238 : list jparam := [].
Definition fpar239 : list jparam := [].
Definition fpar240 : list jparam := [mkJP 0 "Min. variation of load current" 1 0 0 100 []; mkJP 1 "No communication light" 1 2 0 255 []; mkJP 2 "Wheel position" 1 0 0 255 [(128, "Black"); (129, "Green"); (130, "Dark Blue"); (131, "Red"); (132, "Yellow"); (133, "Purple"); (134, "Orange"); (135, "Light Blue"); (136, "Pink"); (137, "Locked")]; mkJP 3 "Power-on state" 1 2 0 2 [(0, "All OFF"); (1, "Remember last state"); (2, "All ON")]; mkJP 4 "LED for network error" 1 0 0 1 [(0, "Disable the LED for network error"); (1, "Enable the LED for network error")]].
Definition fpar241 : list jparam := [mkJP 0 "Min. variation of load current" 1 10 0 100 []; mkJP 1 "No communication light" 1 2 0 255 []; mkJP 2 "Wheel position" 1 0 0 255 [(128, "Black"); (129, "Green"); (130, "Dark Blue"); (131, "Red"); (132, "Yellow"); (133, "Purple"); (134, "Orange"); (135, "Light Blue"); (136, "Pink"); (137, "Locked")]; mkJP 3 "Power-on state" 1 2 0 2 [(0, "All OFF"); (1, "Remember last state"); (2, "All ON")]; mkJP 4 "LED for network  error" 1 1 0 1 [(0, "Disable the LED for network error"); (1, "Enable the LED for network error")]].
Definition fpar242 : list jparam := [mkJP 0 "Min. variation of load current" 1 10 0 100 []; mkJP 1 "No communication light" 1 2 0 255 []; mkJP 2 "Wheel position" 1 0 0 255 [(128, "Black"); (129, "Green"); (130, "Dark Blue"); (131, "Red"); (132, "Yellow"); (133, "Purple"); (134, "Orange"); (135, "Light Blue"); (136, "Pink"); (137, "Locked")]; mkJP 3 "Power-on state" 1 2 0 2 [(0, "All OFF"); (1, "Remember last state"); (2, "All ON")]; mkJP 4 "LED for network  error" 1 1 0 1 [(0, "Disable the LED for network error"); (1, "Enable the LED for network error")]].
Definition fpar243 : list jparam := [mkJP 20 "Overload Protection" 1 1 0 1 []; mkJP 21 "Device Status after Power Failure" 1 0 0 2 []; mkJP 24 "Notifcation on Load Change" 1 1 0 2 []; mkJP 27 "Indicator Modes" 1 0 0 1 []; mkJP 151 "Threshold of power report" 2 50 0 65535 []; mkJP 152 "Percentage Threshold of Power Report" 1 10 0 255 []; mkJP 171 "Power Report Frequency" 4 30 5 2678400 []; mkJP 172 "Energy Report Frequency" 4 300 5 2678400 []; mkJP 173 "Voltage Report Frequency" 4 0 5 2678400 []; mkJP 174 "Electricity Report Frequency" 4 0 5 2678400 []].
Definition fpar244 : list jparam := [].
Definition fpar245 : list jparam := [mkJP 20 "Overload Protection" 1 1 0 1 [(0, "Function Disabled"); (1, "Function enabled")]; mkJP 21 "Device Status After Power Failure." 1 0 0 2 [(0, "Memorizes its state after a power failure"); (1, "Does not memorize its state after power failure  - after reconnect ON."); (2, "Does not memorize its state after power failure - after reconnect OFF.")]; mkJP 24 "Load Status Change Notification" 1 1 0 2 [(0, "Function is disabled"); (1, "Send Basic Report"); (2, "Send Basic Report only when Load Condition is not changed by Command.")]; mkJP 27 "Indicator Modes" 1 0 0 1 [(0, "Will work in indicator mode."); (1, "Will work in indicator mode for 5 seconds, when the  load changed.")]; mkJP 151 "Power Report Threshold" 2 50 0 65535 []; mkJP 152 "Power Report Percentage Threshold " 1 10 0 255 []; mkJP 171 "Power Report Frequence" 4 30 5 2678400 []; mkJP 172 "Energy Report Frequence" 4 300 5 2678400 []; mkJP 173 "Voltage Report Frequency" 4 0 5 2678400 []; mkJP 174 "Electricity Report Frequency" 4 0 5 2678400 []].
Definition fpar246 : list jparam := [].
Definition fpar247 : list jparam := [].
Definition fpar248 : list jparam := [].
Definition fpar249 : list jparam := [].
Definition fpar250 : list jparam := [].
Definition fpar251 : list jparam := [mkJP 1 "Sensitivity" 1 200 0 255 []; mkJP 2 "On Time" 1 20 0 255 []; mkJP 3 "LED On/Off" 1 255 0 255 [(0, "Off"); (255, "On")]; mkJP 4 "Light Threshold" 1 100 0 255 []; mkJP 5 "Stay Awake" 1 0 0 255 []; mkJP 6 "On Value" 1 255 0 255 []].
Definition fpar252 : list jparam := [mkJP 1 "OnTime" 1 10 0 127 []; mkJP 2 "OnLevel" 1 (-1) (-1) 99 []; mkJP 3 "LiteMin" 1 60 0 127 []; mkJP 4 "TempMin" 1 60 0 127 []; mkJP 5 "TempAdj" 1 0 (-127) 128 []].
Definition fpar253 : list jparam := [mkJP 4 "Orientation" 1 0 0 1 [(0, "Normal"); (1, "Inverted")]; mkJP 7 "Remote Dimming Level Increment" 1 1 1 99 []; mkJP 8 "Remote Dimming Step Duration" 1 3 1 255 []; mkJP 9 "Local Dimming Level Increment" 1 1 1 99 []; mkJP 10 "Local Dimming Step Duration" 2 3 1 255 []].
Definition fpar254 : list jparam := [mkJP 3 "Indicator LED" 1 0 0 2 [(0, "LED on when switch is OFF"); (1, "LED on when switch is ON"); (2, "LED always off")]; mkJP 4 "Orientation" 1 0 0 1 [(0, "Normal"); (1, "Inverted")]].
Definition fpar255 : list jparam := [].
Definition fpar256 : list jparam := [].
Definition fpar257 : list jparam := [mkJP 1 "Enable Temperature Sensor" 1 0 0 255 [(0, "Disable"); (255, "Enable")]; mkJP 2 "Temperature Scale" 1 0 0 255 [(0, "Celsius"); (255, "Fahrenheit")]; mkJP 3 "Delta T" 1 10 0 255 []].
Definition fpar258 : list jparam := [mkJP 1 "Temperature Scale" 1 0 0 255 [(0, "Celsius"); (255, "Kelvin")]; mkJP 2 "Lower temperature limit" 1 5 0 255 []; mkJP 3 "Upper temperature limit" 1 5 0 255 []; mkJP 4 "Delta T" 1 5 0 255 []].
Definition fpar259 : list jparam := [].
Definition fpar260 : list jparam := [mkJP 1 "Fail Save timer" 1 0 0 255 []; mkJP 2 "Temperature Scale" 2 0 0 127 []; mkJP 3 "Temperature reporting intervals" 2 0 0 32767 []; mkJP 4 "Delta configuration temperature reporting" 2 0 1 100 []; mkJP 5 "Temperature Cutoff" 2 0 1 1000 []].
Definition fpar261 : list jparam := [].
Definition fpar262 : list jparam := [].
Definition fpar263 : list jparam := [mkJP 1 "Meter register offset" 4 0 0 99999999 []; mkJP 2 "Meter reading reporting intervals" 2 1440 1 10000 []; mkJP 3 "Delta config for meter reading" 2 0 0 10000 []; mkJP 4 "Mechanical meter serial number" 4 0 0 0 []; mkJP 5 "Temperature monitor on / off" 1 0 0 1 []; mkJP 6 "Temperature delta" 1 0 0 30 []; mkJP 7 "Temperature Alarm Threshold" 1 0 0 40 []].
Definition fpar264 : list jparam := [mkJP 1 "Door Lock Mode" 1 1 0 3 [(0, "Disable Away Manual Lock"); (1, "Disable Away Auto Lock"); (2, "Enable Away Manual Lock"); (3, "Enable Away Auto Lock")]; mkJP 2 "RFID Register Mode" 2 0 0 0 []].
Definition fpar265 : list jparam := [mkJP 1 "Door Lock Mode" 1 1 0 3 [(0, "Disable Away Manual Lock"); (1, "Disable Away Auto Lock"); (2, "Enable Away Manual Lock"); (3, "Enable Away Auto Lock")]; mkJP 2 "RFID Register Mode" 2 0 0 0 []].
Definition fpar266 : list jparam := [].
Definition fpar267 : list jparam := [mkJP 0 "Maximum dim level" 1 99 0 99 []; mkJP 1 "Report node" 1 0 0 255 []; mkJP 2 "B&O IR support" 1 1 0 255 [(0, "disabled"); (1, "enabled")]; mkJP 3 "Dimming type" 1 1 0 255 [(0, "Trailing edge"); (1, "Leading edge")]; mkJP 4 "Dimming level duration" 1 8 1 255 []; mkJP 5 "Set level duration" 1 1 1 255 []; mkJP 6 "Long dim duration" 1 158 0 255 []; mkJP 7 "Touch press time" 1 50 1 255 []; mkJP 8 "Touch Multiple Press Time" 1 100 0 255 []; mkJP 9 "Touch Hold Time" 1 40 0 255 []; mkJP 10 "Network Update Interval" 2 168 0 65535 []; mkJP 11 "Rediscover Interval" 2 2362 0 65535 []].
Definition fpar268 : list jparam := [mkJP 0 "Maximum dim level" 1 99 0 99 []; mkJP 1 "Report node" 1 0 0 255 []; mkJP 2 "B&O IR support" 1 1 0 255 [(0, "disabled"); (1, "enabled")]; mkJP 3 "Dimming type" 1 1 0 255 [(0, "Trailing edge"); (1, "Leading edge")]; mkJP 4 "Dimming level duration" 1 8 1 255 []; mkJP 5 "Set level duration" 1 1 1 255 []; mkJP 6 "Long dim duration" 1 158 0 255 []; mkJP 7 "Touch press time" 1 50 1 255 []; mkJP 8 "Touch Multiple Press Time" 1 100 0 255 []; mkJP 9 "Touch Hold Time" 1 40 0 255 []; mkJP 10 "Network Update Interval" 2 168 0 65535 []; mkJP 11 "Rediscover Interval" 2 2362 0 65535 []].
Definition fpar269 : list jparam := [mkJP 0 "Maximum dim level" 1 99 0 99 []; mkJP 1 "Report node" 1 0 0 255 []; mkJP 2 "B&O IR support" 1 1 0 255 [(0, "disabled"); (1, "enabled")]; mkJP 3 "Dimming type" 1 1 0 255 [(0, "Trailing edge"); (1, "Leading edge")]; mkJP 4 "Dimming level duration" 1 8 1 255 []; mkJP 5 "Set level duration" 1 1 1 255 []; mkJP 6 "Long dim duration" 1 158 0 255 []; mkJP 7 "Touch press time" 1 50 1 255 []; mkJP 8 "Touch Multiple Press Time" 1 100 0 255 []; mkJP 9 "Touch Hold Time" 1 40 0 255 []; mkJP 10 "Network Update Interval" 2 168 0 65535 []; mkJP 11 "Rediscover Interval" 2 2362 0 65535 []].
Definition fpar270 : list jparam := [mkJP 1 "Report node" 1 0 0 255 []; mkJP 2 "BO IR support" 1 1 0 255 [(0, "disabled"); (1, "enabled")]].
Definition fpar271 : list jparam := [].
Definition fpar272 : list jparam := [].
Definition fpar273 : list jparam := [].
Definition fpar274 : list jparam := [].
Definition fpar275 : list jparam := [].
Definition fpar276 : list jparam := [].
Definition fpar277 : list jparam := [].
Definition fpar278 : list jparam := [].
Definition fpar279 : list jparam := [].
Definition fpar280 : list jparam := [].
Definition fpar281 : list jparam := [].
Definition fpar282 : list jparam := [].
Definition fpar283 : list jparam := [].
Definition fpar284 : list jparam := [].
Definition fpar285 : list jparam := [mkJP 31 "Auto Buzzer" 1 1 0 1 [(0, "OFF"); (1, "ON")]; mkJP 31 "Auto Lock" 1 0 0 1 [(0, "OFF"); (1, "ON")]; mkJP 31 "Lock LED Status" 1 1 0 1 [(0, "OFF"); (1, "ON")]; mkJP 40 "Factory Default" 1 0 0 1 [(1, "Factory Default")]].
Definition fpar286 : list jparam := [].
Definition fpar287 : list jparam := [mkJP 1 "Fade On Time" 1 2 0 253 []; mkJP 2 "Fade Off Time" 1 2 0 253 []; mkJP 3 "Minimum Light Level" 1 10 0 100 []; mkJP 4 "Maximum Light Level" 1 100 0 100 []; mkJP 5 "Preset Light Level" 1 0 0 100 []; mkJP 6 "LED Dim Level Indicator Timeout" 1 3 0 255 []; mkJP 7 "Locator LED Status" 1 255 0 255 []; mkJP 8 "Load Type" 1 0 0 2 []].
Definition fpar288 : list jparam := [].
Definition fpar289 : list jparam := [mkJP 0 "" 0 0 0 0 []; mkJP 3 "Night Light" 1 0 0 255 [(0, "LED on when switch is OFF"); (1, "LED on when switch is ON"); (2, "LED always off")]; mkJP 4 "Invert Switch" 1 0 0 255 [(0, "No"); (1, "Yes")]; mkJP 5 "Ignore Start-Level (Receiving)" 1 0 0 255 [(0, "No"); (1, "Yes")]; mkJP 7 "On/Off Command Dim Step" 1 1 1 99 []; mkJP 8 "On/Off Command Dim Rate" 1 3 1 255 []; mkJP 9 "Local Control Dim Step" 1 1 1 99 []; mkJP 10 "Local Control Dim Rate" 1 3 1 255 []; mkJP 11 "ALL ON/ALL OFF Dim Step" 1 1 1 99 []; mkJP 12 "ALL ON/ALL OFF Dim Rate" 1 3 1 255 []].
Definition fpar290 : list jparam := [].
Definition fpar291 : list jparam := [].
Definition fpar292 : list jparam := [].
Definition fpar293 : list jparam := [].
Definition fpar294 : list jparam := [].
Definition fpar295 : list jparam := [].
Definition fpar296 : list jparam := [].
Definition fpar297 : list jparam := [].
Definition fpar298 : list jparam := [].
Definition fpar299 : list jparam := [].
Definition fpar300 : list jparam := [].
Definition fpar301 : list jparam := [].
Definition fpar302 : list jparam := [].
Definition fpar303 : list jparam := [].
Definition fpar304 : list jparam := [].
Definition fpar305 : list jparam := [].
Definition fpar306 : list jparam := [mkJP 3 "Night Light" 1 1 0 255 [(0, "No"); (1, "Yes")]].
Definition fpar307 : list jparam := [].
Definition fpar308 : list jparam := [mkJP 1 "Dim Level Memory" 1 0 0 255 [(0, "Disable dim level memory"); (1, "Enable dim level memory")]].
Definition fpar309 : list jparam := [].
Definition fpar310 : list jparam := [mkJP 29 "Load Sense" 1 1 0 255 [(0, "Disable load sense"); (1, "Enable load sense")]].
Definition fpar311 : list jparam := [mkJP 104 "Mode" 1 0 0 0 [(0, "Flash Mode"); (1, "ON/OFF Operation")]].
Definition fpar312 : list jparam := [].
Definition fpar313 : list jparam := [mkJP 1 "Siren / Strobe Mode" 1 0 0 2 [(0, "Siren and Strobe"); (1, "Siren Ony"); (2, "Strobe Only")]; mkJP 2 "Auto Stop Time" 1 0 0 2 [(0, "30 Seconds"); (1, "60 Seconds"); (2, "120 Seconds")]].
Definition fpar314 : list jparam := [mkJP 0 "Siren Strobe Mode" 1 0 0 2 [(0, "All Enabled"); (1, "Siren Only"); (2, "Strobe Only")]; mkJP 1 "Alarm auto stop" 1 0 0 3 [(0, "30 seconds"); (1, "60 seconds"); (2, "120 seconds"); (3, "Continuous")]].
Definition fpar315 : list jparam := [].
Definition fpar316 : list jparam := [mkJP 1 "Re-trigger Wait Time" 1 3 1 255 []].
Definition fpar317 : list jparam := [mkJP 1 "Dim Start Level" 1 1 0 255 [(0, "Use Start Level"); (1, "Ignore Start Level")]; mkJP 3 "LED Indication" 1 0 0 255 [(0, "0"); (1, "1")]; mkJP 4 "Invert Switch" 1 0 0 255 [(0, "Top-ON, Bottom-OFF "); (1, "Bottom-ON, Top-OFF")]; mkJP 14 "Enable Shade Control Group 2" 1 0 0 255 [(0, "Disable"); (1, "Enable")]; mkJP 15 "Enable Shade Control Group 3" 1 0 0 255 [(0, "Disable"); (1, "Enable")]; mkJP 19 "LED Transmission Indication" 1 2 0 255 [(0, "Disable Flicker"); (1, "Flicker while transmitting"); (2, "Flicker for 1 second")]].
Definition fpar318 : list jparam := [mkJP 3 "Night Light" 1 0 0 255 [(0, "On when load is on"); (1, "Off when load is on")]].
Definition fpar319 : list jparam := [mkJP 3 "Night Light" 1 1 0 255 [(0, "On when load is on"); (1, "Off when load is on")]; mkJP 4 "Invert Switch" 1 0 0 255 [(0, "Top-ON, Bottom-OFF "); (1, "Bottom-ON, Top-OFF")]].
Definition fpar320 : list jparam := [mkJP 1 "Dim Start Level" 1 1 0 255 [(0, "Use Start Level"); (1, "Ignore Start Level")]; mkJP 2 "Suspend Group 4" 1 0 0 255 [(0, "Enable Group 4"); (1, "Disable Group 4")]; mkJP 3 "Night Light" 1 0 0 255 [(0, "On when load is on"); (1, "On when load is off")]; mkJP 4 "Invert Switch" 1 0 0 255 [(0, "Top-ON, Bottom-OFF "); (1, "Bottom-ON, Top-OFF")]; mkJP 5 "Ignore start level when recieving dim commands" 1 1 0 255 [(0, "Use start level"); (1, "Ignore start level")]; mkJP 7 "ON/OFF dim rate" 1 3 1 99 []; mkJP 8 "ON/OFF dim rate" 1 10 1 255 []; mkJP 9 "Local control dim rate" 1 3 1 99 []; mkJP 10 "Local control dim rate" 1 10 1 255 []; mkJP 11 "ALL ON/ ALL OFF dim rate" 1 3 1 99 []; mkJP 12 "ALL ON/ ALL OFF dim rate" 1 10 1 255 []; mkJP 13 "Disable group 4 during a dim command" 1 0 0 255 [(0, "Enable"); (1, "Disable")]; mkJP 14 "Enable Shade Control Group 2" 1 0 0 255 [(0, "Disable"); (1, "Enable")]; mkJP 15 "Enable Shade Control Group 3" 1 0 0 255 [(0, "Disable"); (1, "Enable")]; mkJP 16 "Enable Shade Control Group 1" 1 0 0 255 [(0, "Disable"); (1, "Enable")]; mkJP 19 "LED Transmission Indication" 1 2 0 255 [(0, "Disable Flicker"); (1, "Flicker while transmitting"); (2, "Flicker for 1 second")]; mkJP 20 "Poll: minutes" 1 2 1 255 []; mkJP 21 "Poll first node in group 1" 1 0 0 255 [(0, "Do not poll first node in group"); (1, "Poll first node in group")]].
Definition fpar321 : list jparam := [mkJP 1 "Upper paddle buttons mode" 1 0 0 1 [(0, "Separate mode (toggle mode)."); (1, "Pair mode")]; mkJP 2 "Lower paddle buttons mode" 1 0 0 1 [(0, "Separate mode (toggle mode)."); (1, "Pair mode")]; mkJP 3 "LED indication #1" 1 1 0 7 [(0, "LED indication is disabled"); (1, "Indicates corresponding button"); (2, "Inverted indication"); (3, "Status of corresponding paddle"); (4, "Corresponding paddle, with inverted indication."); (5, "Status of the built-in relay."); (6, "Status of the built-in relay, inverted indication."); (7, "5 seconds indication")]; mkJP 4 "LED indication #2" 1 1 0 7 [(0, "LED indication is disabled"); (1, "Indicates corresponding button"); (2, "Inverted indication"); (3, "Status of corresponding paddle"); (4, "Corresponding paddle, with inverted indication."); (5, "Status of the built-in relay."); (6, "Status of the built-in relay, inverted indication."); (7, "5 seconds indication")]; mkJP 5 "LED indication #3" 1 1 0 7 [(0, "LED indication is disabled"); (1, "Indicates corresponding button"); (2, "Inverted indication"); (3, "Status of corresponding paddle"); (4, "Corresponding paddle, with inverted indication."); (5, "Status of the built-in relay."); (6, "Status of the built-in relay, inverted indication."); (7, "5 seconds indication")]; mkJP 6 "LED indication #4" 1 1 0 7 [(0, "LED indication is disabled"); (1, "Indicates corresponding button"); (2, "Inverted indication"); (3, "Status of corresponding paddle"); (4, "Corresponding paddle, with inverted indication."); (5, "Status of the built-in relay."); (6, "Status of the built-in relay, inverted indication."); (7, "5 seconds indication")]; mkJP 7 "Percentage of light in the LED #1 when On" 1 50 0 100 []; mkJP 8 "Percentage of light in the LED #2 when On" 1 50 0 100 []; mkJP 9 "Percentage of light in the LED #3 when On" 1 50 0 100 []; mkJP 10 "Percentage of light in the LED #4 when On" 1 50 0 100 []; mkJP 11 "Percentage of light in the LED #1 when Off" 1 0 0 100 []; mkJP 12 "Percentage of light in the LED #2 when Off" 1 0 0 100 []; mkJP 13 "Percentage of light in the LED #3 when Off" 1 0 0 100 []; mkJP 14 "Percentage of light in the LED #4 when Off" 1 0 0 100 []; mkJP 15 "Relay mode" 1 1 0 5 [(0, "Relay is disabled."); (1, "Relay is controlled by button #1"); (2, "Relay is controlled by button #2"); (3, "Relay is controlled by button #3"); (4, "Relay is controlled by button #4"); (5, "Relay is activated for one second, button #1"); (6, "Relay is activated for half a second, button #2 "); (7, "Relay is activated for half a second, button #3 "); (8, "Relay is activated for half a second, button #4"); (9, "Relay follows the state of button #1"); (10, "Relay follows the state of button #2"); (11, "Relay follows the state of button #3"); (12, "Relay follows the state of button #4"); (13, "Relay is only controlled by commands sent to the root device")]; mkJP 16 "Indicator mode." 1 1 0 1 [(0, "Indicator Set level used to control the LED."); (1, "Indicator Set level values and internal LED activations.")]; mkJP 17 "Scene notification offset." 1 1 0 200 [(0, "Scene notifications are turned off."); (1, "Send scene value for button #")]; mkJP 18 "Disable House Cleaning." 1 0 0 1 [(0, "House Cleaning Mode is enabled"); (1, " 1 House Cleaning Mode is disabled.")]; mkJP 19 "Multilevel Switch (button #1) Disabled/Enabled" 4 1 0 1 [(0, "Disabled"); (1, "Enabled")]; mkJP 19 "Multilevel Switch - Upper switch value" 4 255 0 255 []; mkJP 19 "Multilevel Switch - Lower switch value" 4 0 0 99 []; mkJP 20 "Multilevel Switch (button #2) Disabled/Enabled" 4 1 0 1 [(0, "Disabled"); (1, "Enabled")]; mkJP 20 "Multilevel Switch - Upper switch value" 4 255 0 255 []; mkJP 20 "Multilevel Switch - Lower switch value" 4 0 0 99 []; mkJP 21 "Multilevel Switch (button #3) Disabled/Enabled" 4 1 0 1 [(0, "Disabled"); (1, "Enabled")]; mkJP 21 "Multilevel Switch - Upper switch value" 4 255 0 255 []; mkJP 21 "Multilevel Switch - Lower switch value" 4 0 0 99 []; mkJP 22 "Multilevel Switch (button #4) Disabled/Enabled" 4 1 0 1 [(0, "Disabled"); (1, "Enabled")]; mkJP 22 "Multilevel Switch - Upper switch value" 4 255 0 255 []; mkJP 22 "Multilevel Switch - Lower switch value" 4 0 0 99 []; mkJP 23 "Control of association groups (button #1)." 1 1 0 1 [(0, "Association groups will not be switched."); (1, "Association groups will be switched,")]; mkJP 24 "Control of association groups (button #2)." 1 1 0 1 [(0, "Association groups will not be switched."); (1, "Association groups will be switched,")]; mkJP 25 "Control of association groups (button #3)." 1 1 0 1 [(0, "Association groups will not be switched."); (1, "Association groups will be switched,")]; mkJP 26 "Control of association groups (button #4)." 1 1 0 1 [(0, "Association groups will not be switched."); (1, "Association groups will be switched,")]].
Definition fpar322 : list jparam := [mkJP 1 "Upper paddle buttons mode" 1 0 0 1 [(0, "Separate mode (toggle mode)."); (1, "Pair mode")]; mkJP 2 "Lower paddle buttons mode" 1 0 0 1 [(0, "Separate mode (toggle mode)."); (1, "Pair mode")]; mkJP 3 "LED indication #1" 1 1 0 7 [(0, "LED indication is disabled"); (1, "Indicates corresponding button"); (2, "Inverted indication"); (3, "Status of corresponding paddle"); (4, "Corresponding paddle, with inverted indication."); (5, "Status of the built-in relay."); (6, "Status of the built-in relay, inverted indication."); (7, "5 seconds indication")]; mkJP 4 "LED indication #2" 1 1 0 7 [(0, "LED indication is disabled"); (1, "Indicates corresponding button"); (2, "Inverted indication"); (3, "Status of corresponding paddle"); (4, "Corresponding paddle, with inverted indication."); (5, "Status of the built-in relay."); (6, "Status of the built-in relay, inverted indication."); (7, "5 seconds indication")]; mkJP 5 "LED indication #3" 1 1 0 7 [(0, "LED indication is disabled"); (1, "Indicates corresponding button"); (2, "Inverted indication"); (3, "Status of corresponding paddle"); (4, "Corresponding paddle, with inverted indication."); (5, "Status of the built-in relay."); (6, "Status of the built-in relay, inverted indication."); (7, "5 seconds indication")]; mkJP 6 "LED indication #4" 1 1 0 7 [(0, "LED indication is disabled"); (1, "Indicates corresponding button"); (2, "Inverted indication"); (3, "Status of corresponding paddle"); (4, "Corresponding paddle, with inverted indication."); (5, "Status of the built-in relay."); (6, "Status of the built-in relay, inverted indication."); (7, "5 seconds indication")]; mkJP 7 "Percentage of light in the LED #1 when On" 1 50 0 100 []; mkJP 8 "Percentage of light in the LED #2 when On" 1 50 0 100 []; mkJP 9 "Percentage of light in the LED #3 when On" 1 50 0 100 []; mkJP 10 "Percentage of light in the LED #4 when On" 1 50 0 100 []; mkJP 11 "Percentage of light in the LED #1 when Off" 1 0 0 100 []; mkJP 12 "Percentage of light in the LED #2 when Off" 1 0 0 100 []; mkJP 13 "Percentage of light in the LED #3 when Off" 1 0 0 100 []; mkJP 14 "Percentage of light in the LED #4 when Off" 1 0 0 100 []; mkJP 15 "Relay mode" 1 1 0 5 [(0, "Relay is disabled."); (1, "Relay is controlled by button #1"); (2, "Relay is controlled by button #2"); (3, "Relay is controlled by button #3"); (4, "Relay is controlled by button #4"); (5, "Relay is activated for one second, button #1"); (6, "Relay is activated for half a second, button #2 "); (7, "Relay is activated for half a second, button #3 "); (8, "Relay is activated for half a second, button #4"); (9, "Relay follows the state of button #1"); (10, "Relay follows the state of button #2"); (11, "Relay follows the state of button #3"); (12, "Relay follows the state of button #4"); (13, "Relay is only controlled by commands sent to the root device")]; mkJP 16 "Indicator mode." 1 1 0 1 [(0, "Indicator Set level used to control the LED."); (1, "Indicator Set level values and internal LED activations.")]; mkJP 17 "Scene notification offset." 1 1 0 200 [(0, "Scene notifications are turned off."); (1, "Send scene value for button #")]; mkJP 18 "Disable House Cleaning." 1 0 0 1 [(0, "House Cleaning Mode is enabled"); (1, " 1 House Cleaning Mode is disabled.")]; mkJP 19 "Multilevel Switch (button #1) Disabled/Enabled" 4 1 0 1 [(0, "Disabled"); (1, "Enabled")]; mkJP 19 "Multilevel Switch - Upper switch value" 4 255 0 255 []; mkJP 19 "Multilevel Switch - Lower switch value" 4 0 0 99 []; mkJP 20 "Multilevel Switch (button #2) Disabled/Enabled" 4 1 0 1 [(0, "Disabled"); (1, "Enabled")]; mkJP 20 "Multilevel Switch - Upper switch value" 4 255 0 255 []; mkJP 20 "Multilevel Switch - Lower switch value" 4 0 0 99 []; mkJP 21 "Multilevel Switch (button #3) Disabled/Enabled" 4 1 0 1 [(0, "Disabled"); (1, "Enabled")]; mkJP 21 "Multilevel Switch - Upper switch value" 4 255 0 255 []; mkJP 21 "Multilevel Switch - Lower switch value" 4 0 0 99 []; mkJP 22 "Multilevel Switch (button #4) Disabled/Enabled" 4 1 0 1 [(0, "Disabled"); (1, "Enabled")]; mkJP 22 "Multilevel Switch - Upper switch value" 4 255 0 255 []; mkJP 22 "Multilevel Switch - Lower switch value" 4 0 0 99 []; mkJP 23 "Control of association groups (button #1)." 1 1 0 1 [(0, "Association groups will not be switched."); (1, "Association groups will be switched,")]; mkJP 24 "Control of association groups (button #2)." 1 1 0 1 [(0, "Association groups will not be switched."); (1, "Association groups will be switched,")]; mkJP 25 "Control of association groups (button #3)." 1 1 0 1 [(0, "Association groups will not be switched."); (1, "Association groups will be switched,")]; mkJP 26 "Control of association groups (button #4)." 1 1 0 1 [(0, "Association groups will not be switched."); (1, "Association groups will be switched,")]].
Definition fpar323 : list jparam := [].
Definition fpar324 : list jparam := [mkJP 1 "Notification Threshold" 2 1000 1 2000 []].
Definition fpar325 : list jparam := [].
Definition fpar326 : list jparam := [].
Definition fpar327 : list jparam := [].
Definition fpar328 : list jparam := [].
Definition fpar329 : list jparam := [mkJP 1 "Notification Threshold" 2 1000 1 2000 []].
Definition fpar330 : list jparam := [].
Definition fpar331 : list jparam := [].
Definition fpar332 : list jparam := [].
Definition fpar333 : list jparam := [].
Definition fpar334 : list jparam := [mkJP 1 "Saving state before power failure" 1 1 0 1 [(0, "Disabled"); (1, "Enabled")]].
Definition fpar335 : list jparam := [mkJP 1 "Saving state before power failure" 1 1 0 1 [(0, "Disabled"); (1, "Enabled")]].
Definition fpar336 : list jparam := [mkJP 0 "Switching/dimming/shutters" 1 0 0 127 []; mkJP 4 "Switching single-surface" 1 0 0 127 []; mkJP 44 "Doorbell function" 1 0 0 127 []; mkJP 52 "LOWER shutter as long as button is pressed" 1 0 0 127 []; mkJP 54 "Move shutter single-surface" 1 0 0 127 []; mkJP 55 "RAISE shutter as long as button is pressed" 1 0 0 127 []].
Definition fpar337 : list jparam := [mkJP 0 "Switching/dimming/shutters" 1 0 0 127 []; mkJP 4 "Switching single-surface" 1 0 0 127 []; mkJP 44 "Doorbell function" 1 0 0 127 []; mkJP 52 "LOWER shutter as long as button is pressed" 1 0 0 127 []; mkJP 54 "Move shutter single-surface" 1 0 0 127 []; mkJP 55 "RAISE shutter as long as button is pressed" 1 0 0 127 []].
Definition fpar338 : list jparam := [].
Definition fpar339 : list jparam := [].
Definition fpar340 : list jparam := [mkJP 176 "Staircase  timer byte 1" 1 0 0 127 []; mkJP 177 "Staircase  timer byte 2" 1 0 0 127 []; mkJP 183 "Additional limit duration (after brief interruption)" 1 30 0 127 []].
Definition fpar341 : list jparam := [mkJP 196 " Dimmer speed" 1 0 0 240 []].
Definition fpar342 : list jparam := [mkJP 4 "Switching single-surface" 1 0 0 127 []; mkJP 44 "Doorbell function" 1 0 0 127 []; mkJP 52 "LOWER shutter as long as button is pressed" 1 0 0 127 []; mkJP 54 "Move shutter single-surface" 1 0 0 127 []; mkJP 55 "RAISE shutter as long as button is pressed" 1 0 0 127 []].
Definition fpar343 : list jparam := [].
Definition fpar344 : list jparam := [mkJP 0 "Switching/dimming/shutters" 1 0 0 127 []; mkJP 4 "Switching single-surface" 1 0 0 127 []; mkJP 176 "Break (motor protection)" 1 0 0 255 []; mkJP 177 "Travel time UP, Byte 1" 1 0 0 255 []; mkJP 178 "Travel time UP, Byte 2" 1 0 0 255 []; mkJP 179 "Travel time DOWN, Byte 1" 1 0 0 255 []; mkJP 180 "Travel time DOWN, Byte 2" 1 0 0 255 []].
Definition fpar345 : list jparam := [].
Definition fpar346 : list jparam := [mkJP 1 "Send Battery Report with Notification Report" 1 0 0 1 [(0, "Do not send battery report"); (1, "Send Battery Report")]].
Definition fpar347 : list jparam := [mkJP 1 "Default State" 1 2 0 63 [(0, "OFF"); (1, "ON"); (2, "Status before Power Failure")]; mkJP 2 "Power Failure" 1 0 0 63 [(0, "Power Failure detection disable"); (1, "Power Failure enable (report to Lifeline only)"); (2, "Enable group 4"); (4, "Enable group 5"); (8, "Enable group 6"); (16, "Enable group 7"); (32, "Enable group 8")]; mkJP 3 "Follow State" 1 3 0 3 [(0, "Disable group 2 & 3"); (1, "Enable group 2"); (2, "Enable group 3"); (3, "Enable group 2 & 3")]; mkJP 4 "Always On" 1 0 0 1 [(0, "Always ON disabled"); (1, "Always ON enabled")]].
Definition fpar348 : list jparam := [mkJP 1 "Buttons 1 and 3 profile" 1 0 0 255 [(0, "Scene"); (1, "Mono"); (2, "Duo")]; mkJP 2 "Buttons 2 and 4 profile" 1 0 0 255 [(0, "Scene"); (1, "Mono"); (2, "Duo")]; mkJP 3 "Scene Type" 1 0 0 255 [(0, "Central Scene"); (1, "Scene Activation")]; mkJP 4 "Button 1 configuration" 1 0 0 255 [(0, "Control group 2"); (1, "All switches ON"); (2, "All switches OFF")]; mkJP 5 "Button 2 configuration" 1 0 0 255 [(0, "Control group 3"); (1, "All switches ON"); (2, "All switches OFF")]; mkJP 6 "Button 3 configuration" 1 0 0 255 [(0, "Control group 4"); (1, "All switches ON"); (2, "All switches OFF")]; mkJP 7 "Button 4 configuration" 1 0 0 255 [(0, "Control group 5"); (1, "All switches ON"); (2, "All switches OFF")]; mkJP 8 "LED Management" 1 0 0 255 [(0, "No LED"); (1, "Flash Blue after button press"); (2, "Blink to confirm command"); (3, "Flash Blue after button press and blink to confirm command")]].
Definition fpar349 : list jparam := [mkJP 1 "Buttons 1 and 3 profile" 1 0 0 255 [(0, "Scene"); (1, "Mono"); (2, "Duo")]; mkJP 2 "Buttons 2 and 4 profile" 1 0 0 255 [(0, "Scene"); (1, "Mono"); (2, "Duo")]; mkJP 3 "Scene Type" 1 0 0 255 [(0, "Central Scene"); (1, "Scene Activation")]; mkJP 4 "Button 1 configuration" 1 0 0 255 [(0, "Control group 2"); (1, "All switches ON"); (2, "All switches OFF")]; mkJP 5 "Button 2 configuration" 1 0 0 255 [(0, "Control group 3"); (1, "All switches ON"); (2, "All switches OFF")]; mkJP 6 "Button 3 configuration" 1 0 0 255 [(0, "Control group 4"); (1, "All switches ON"); (2, "All switches OFF")]; mkJP 7 "Button 4 configuration" 1 0 0 255 [(0, "Control group 5"); (1, "All switches ON"); (2, "All switches OFF")]; mkJP 8 "LED Management" 1 0 0 255 [(0, "No LED"); (1, "Flash Blue after button press"); (2, "Blink to confirm command"); (3, "Flash Blue after button press and blink to confirm command")]].
Definition fpar350 : list jparam := [mkJP 1 "Default State" 1 2 0 2 [(0, "OFF"); (1, "ON"); (2, "Status before power outage")]; mkJP 3 "Follow State" 1 3 0 3 [(0, "Group 2 & Group 3 disable"); (1, "Group 2 enable"); (2, "Group 3 enable"); (3, "Group 2 & Group 3 enable")]; mkJP 4 "Always On" 1 0 0 1 [(0, "Always ON disable"); (1, "Always ON enable")]; mkJP 21 "Power Auto-Sending Report" 1 10 0 100 [(0, "Power Auto-Polling Report Disable"); (10, "Power Auto-Polling Report Enable if 10%"); (20, "Power Auto-Polling Report Enable if 20 %"); (30, "Power Auto-Polling Report Enable if 30 %"); (40, "Power Auto-Polling Report Enable if 40 %"); (50, "Power Auto-Polling Report Enable if 50 %"); (60, "Power Auto-Polling Report Enable if 60 %"); (70, "Power Auto-Polling Report Enable if 70 %"); (80, "Power Auto-Polling Report Enable if 80 %"); (90, "Power Auto-Polling Report Enable if 90 %"); (100, "Power Auto-Polling Report Enable if 100%")]; mkJP 22 "Overload Report" 2 2000 0 2000 [(0, "Overload Report Disable (Not Recommended)"); (50, "Overload Report enable with a upper limit of 50 W"); (100, "Overload Report enable with a upper limit of 100 W"); (150, "Overload Report enable with a upper limit of 150 W"); (200, "Overload Report enable with a upper limit of 200 W"); (250, "Overload Report enable with a upper limit of 250 W"); (500, "Overload Report enable with a upper limit of 500 W"); (1000, "Overload Report enable with a upper limit of 1000 W"); (1500, "Overload Report enable with a upper limit of 1500 W"); (2000, "Overload Report enable with a upper limit of 2000 W")]; mkJP 23 "Energy Auto-Sending Report" 2 1000 0 65535 [(0, "Energy Auto-Polling Report Disable"); (1000, "Energy Auto-Polling Report enable if 1000 Wh variation"); (2000, "Energy Auto-Polling Report enable if 2000 Wh variation"); (3000, "Energy Auto-Polling Report enable if 3000 Wh variation"); (4000, "Energy Auto-Polling Report enable if 4000 Wh variation"); (5000, "Energy Auto-Polling Report enable if 5000 Wh variation"); (10000, "Energy Auto-Polling Report enable if 10.000 Wh variation"); (20000, "Energy Auto-Polling Report enable if 20.000 Wh variation"); (30000, "Energy Auto-Polling Report enable if 30.000 Wh variation"); (40000, "Energy Auto-Polling Report enable if 40.000 Wh variation"); (50000, "Energy Auto-Polling Report enable if 50.000 Wh variation"); (60000, "Energy Auto-Polling Report enable if 60.000 Wh variation"); (65535, "Energy Auto-Polling Report enable if 65.535 Wh variation")]; mkJP 24 "Metering Heartbeat" 2 3600 0 65535 [(0, "Metering Pulse disable"); (3600, "Metering Pulse enable and send report every hour"); (21600, "Metering Pulse enable and send report every 6 hours"); (43200, "Metering Pulse enable and send report every 12 hours")]; mkJP 25 "Power High Threshold" 2 20 0 65535 [(0, "Power High Threshold disable"); (10, "Power High Threshold enable with the value from 10 W"); (20, "Power High Threshold enable with the value from 20 W"); (30, "Power High Threshold enable with the value from 30 W"); (40, "Power High Threshold enable with the value from 40 W"); (50, "Power High Threshold enable with the value from 50 W"); (100, "Power High Threshold enable with the value from 100 W"); (200, "Power High Threshold enable with the value from 200 W"); (300, "Power High Threshold enable with the value from 300 W"); (400, "Power High Threshold enable with the value from 400 W"); (500, "Power High Threshold enable with the value from 500 W"); (1000, "Power High Threshold enable with the value from 1000 W"); (1500, "Power High Threshold enable with the value from 1500 W"); (2000, "Power High Threshold enable with the value from 2000 W")]; mkJP 26 "Power Low Threshold" 2 5 0 65535 [(0, "Power Low Threshold disable"); (5, "Power Low Threshold enable with the value from 5 W"); (10, "Power Low Threshold enable with the value from 10 W"); (20, "Power Low Threshold enable with the value from 20 W"); (30, "Power Low Threshold enable with the value from 30 W"); (40, "Power Low Threshold enable with the value from 40 W"); (50, "Power Low Threshold enable with the value from 50 W"); (100, "Power Low Threshold enable with the value from 100 W"); (200, "Power Low Threshold enable with the value from 200 W"); (300, "Power Low Threshold enable with the value from 300 W"); (400, "Power Low Threshold enable with the value from 400 W"); (500, "Power Low Threshold enable with the value from 500 W"); (1000, "Power Low Threshold enable with the value from 1000 W"); (1500, "Power Low Threshold enable with the value from 1500 W"); (2000, "Power Low Threshold enable with the value from 2000 W")]; mkJP 27 "Power Threshold Action" 1 7 0 20 [(0, "Power Threshold Action is disable."); (1, "Power High Group 4 OFF"); (3, "Power High Group 4 ON"); (4, "Power Low Group 5 OFF"); (5, "Power High Group 4 OFF & Power Low Group 5 OFF"); (7, "Power High Group 4 ON & Power Low Group 5 OFF"); (12, "Power High Group 5 ON"); (13, "Power High Group 4 OFF & Power Low Gourp 5 ON"); (15, "Power High Group 4 ON & Power Low Group 5 ON")]].
Definition fpar351 : list jparam := [mkJP 1 "Buttons 1 and 3 profile" 1 0 0 255 [(0, "Scene"); (1, "Mono"); (2, "Duo")]; mkJP 2 "Buttons 2 and 4 profile" 1 0 0 255 [(0, "Scene"); (1, "Mono"); (2, "Duo")]; mkJP 3 "Scene Type" 1 0 0 255 [(0, "Central Scene"); (1, "Scene Activation")]; mkJP 4 "Button 1 configuration" 1 0 0 255 [(0, "Control group 2"); (1, "All switches ON"); (2, "All switches OFF")]; mkJP 5 "Button 2 configuration" 1 0 0 255 [(0, "Control group 3"); (1, "All switches ON"); (2, "All switches OFF")]; mkJP 6 "Button 3 configuration" 1 0 0 255 [(0, "Control group 4"); (1, "All switches ON"); (2, "All switches OFF")]; mkJP 7 "Button 4 configuration" 1 0 0 255 [(0, "Control group 5"); (1, "All switches ON"); (2, "All switches OFF")]; mkJP 8 "LED Management" 1 0 0 255 [(0, "No LED"); (1, "Flash Blue after button press"); (2, "Blink to confirm command"); (3, "Flash Blue after button press and blink to confirm command")]].
Definition fpar352 : list jparam := [mkJP 1 "Pulse factor" 4 10000 0 65535 []; mkJP 2 "Sensor type" 1 2 0 255 [(1, "magnetic contact"); (2, "silver spot meter")]; mkJP 3 "IR Listen period" 1 0 0 127 []; mkJP 4 "IR Pulse Width" 1 50 0 127 []; mkJP 5 "Poll / Wake up frequency" 1 20 1 50 []; mkJP 6 "Pulse Threshold Low" 1 0 0 128 []; mkJP 7 "Pulse Threshold High" 1 5 0 128 []; mkJP 8 "Wakeup Interval" 1 0 0 255 []; mkJP 9 "Pulse count" 4 20 1 50 []; mkJP 10 "Keep alive period" 2 60 0 32767 []; mkJP 11 "Real-time mode" 2 0 0 32767 []; mkJP 13 "Off" 1 0 0 1 []].
Definition fpar353 : list jparam := [mkJP 1 "Pulse factor" 2 1024 0 65535 []; mkJP 2 "Sensor type" 1 2 0 255 [(1, "Pulse meter"); (2, "Mechanical meter")]; mkJP 3 "IR Listen period" 1 0 0 255 []; mkJP 4 "IR Pulse Width" 1 0 0 255 []; mkJP 5 "Poll / Wake up frequency" 1 20 1 50 []; mkJP 6 "Pulse Threshold Low" 1 0 0 143 []; mkJP 7 "Pulse Threshold High" 1 5 0 143 []; mkJP 8 "Wakeup Interval" 2 0 0 65535 []; mkJP 9 "Pulse count" 4 0 1 (-1) []; mkJP 10 "Keep alive period" 2 3 0 65535 []; mkJP 11 "Real-time mode" 2 0 0 65535 []; mkJP 12 "Serial number" 4 0 0 65535 []; mkJP 13 "Debug mode" 1 1 0 255 [(0, "Off"); (1, "LED blinks at pulse counting")]; mkJP 15 "Calibration status" 4 0 0 65535 []].
Definition fpar354 : list jparam := [mkJP 1 "Pulse factor" 2 1024 0 65535 []; mkJP 2 "Sensor type" 1 2 0 255 [(1, "Pulse meter"); (2, "Mechanical meter")]; mkJP 3 "IR Listen period" 1 0 0 255 []; mkJP 4 "IR Pulse Width" 1 0 0 255 []; mkJP 5 "Poll / Wake up frequency" 1 20 1 50 []; mkJP 6 "Pulse Threshold Low" 1 0 0 143 []; mkJP 7 "Pulse Threshold High" 1 5 0 143 []; mkJP 8 "Wakeup Interval" 2 0 0 65535 []; mkJP 9 "Pulse count" 4 0 1 (-1) []; mkJP 10 "Keep alive period" 2 3 0 65535 []; mkJP 11 "Real-time mode" 2 0 0 65535 []; mkJP 12 "Serial number" 4 0 0 65535 []; mkJP 13 "Debug mode" 1 1 0 255 [(0, "Off"); (1, "LED blinks at pulse counting")]; mkJP 15 "Calibration status" 4 0 0 65535 []].
Definition fpar355 : list jparam := [mkJP 1 "1: Pulse factor" 4 1000 0 1000000 []; mkJP 2 "2: Sensor type" 1 2 1 2 [(1, "magnetic contact"); (2, "silver spot meter")]; mkJP 9 "9: Pulse count" 4 0 0 2147483647 []; mkJP 10 "10: Keep alive period" 2 5 0 32767 []; mkJP 11 "11: Real-time mode" 2 0 0 32767 []; mkJP 12 "12: Serial number" 4 0 0 (-1) []; mkJP 15 "15: Calibration status" 4 0 0 65535 []].
Definition fpar356 : list jparam := [mkJP 1 "Power meter report period" 2 720 1 32767 []; mkJP 2 "Energy meter report period" 2 720 1 32767 []; mkJP 3 "Selected default endpoint" 1 1 1 3 []].
Definition fpar357 : list jparam := [mkJP 1 "Mode of  Switch Off  function" 1 1 0 1 [(0, "Disabled"); (1, "Enabled")]; mkJP 2 "LED indication mode" 1 1 1 2 [(1, "Show current switch state"); (2, "Night mode (opposite)")]; mkJP 3 "Auto off timer" 2 0 0 32767 []; mkJP 4 "RF off command mode" 1 0 0 3 [(0, "Switch off"); (1, "Ignore"); (2, "Toggle Switch"); (3, "Switch On")]].
Definition fpar358 : list jparam := [mkJP 1 "Watt Meter Report Period" 2 720 1 32767 []; mkJP 2 "KWH Meter Report Period" 2 6 1 32767 []; mkJP 3 "Threshold of current for Load caution" 2 1100 10 1100 []; mkJP 4 "Threshold of KWh for Load caution" 2 10000 10 10000 []; mkJP 5 "Restore switch state mode" 1 1 0 2 [(0, "Switch off"); (1, "Last switch state"); (2, "Switch on")]; mkJP 6 "Manual On/Off mode" 1 0 0 1 [(0, "Disable manual On/Off"); (1, "Enable manual On/Off")]; mkJP 7 "LED indication mode" 1 1 1 3 [(1, "Show switch state"); (2, " Show night mode"); (2, "One flash mode")]; mkJP 8 "Auto off timer" 2 0 0 32767 []; mkJP 9 "RF off command mode" 1 0 0 3 [(0, "Switch off"); (1, "Ignore"); (2, "Switch toggle"); (3, "Switch on")]].
Definition fpar359 : list jparam := [mkJP 1 "W meter report period" 2 720 0 65535 []; mkJP 2 "kWh meter report period" 2 6 0 65535 []; mkJP 3 "Selected endpoint" 1 1 0 255 [(1, "Relay 1"); (2, "Relay 2"); (3, "Relay 1 + 2")]; mkJP 4 "Switch mode" 1 1 0 255 [(1, "Edge mode"); (2, "Pulse mode"); (3, "Edge-Toggle mode")]; mkJP 5 "Threshold of Watt for Load Caution" 2 750 0 65535 []; mkJP 6 "Threshold of kWh for Load Caution" 2 10000 0 65535 []; mkJP 7 "Restore switch state mode" 1 1 0 255 [(0, "Switch Off"); (1, "Last State"); (2, "Switch On")]; mkJP 8 "Auto Off Timer" 2 0 0 65535 []; mkJP 9 "RF off command mode" 1 1 0 255 [(0, "Switch Off"); (1, "Ignore"); (2, "Switch Toggle"); (3, "Switch On")]; mkJP 10 "Endpoint 3" 1 1 0 255 [(1, "Exists"); (2, "Doesn't Exist")]].
Definition fpar360 : list jparam := [mkJP 1 "Selected endpoint" 1 1 0 255 [(1, "Relay 1 + 2"); (2, "Relay 1"); (3, "Relay 2")]; mkJP 2 "Switch mode" 1 1 0 255 [(1, "Edge mode"); (2, "Pulse mode"); (3, "Edge-Toggle mode")]].
Definition fpar361 : list jparam := [mkJP 1 "Watt meter report interval (5s)" 2 720 1 32767 []; mkJP 2 "KWH Meter Report Interval (10min)" 2 6 1 32767 []; mkJP 3 "Threshold for Load Caution (10mA)" 2 1100 1 1100 []; mkJP 4 "Threshold of KWh for Load Caution" 2 10000 1 10000 []].
Definition fpar362 : list jparam := [mkJP 1 "W meter report period" 2 720 0 32767 []; mkJP 2 "kWh meter report period" 2 6 0 32767 []; mkJP 3 "Threshold of Watt for load caution" 2 1300 10 1300 []; mkJP 4 "Threshold of kWh for Load Caution" 2 10000 1 10000 []; mkJP 5 "Restore switch state mode" 1 1 0 255 [(0, "Switch Off"); (1, "Last State"); (2, "Switch On")]; mkJP 6 "Mode of switch Off function" 1 1 0 255 [(0, "SWITCH OFF commands received are ignored."); (1, "SWITCH OFF commands received are honored.")]; mkJP 7 "LED indication mode" 1 1 0 255 [(1, "The LED follows the state of the switch."); (2, "LED off with load ON"); (3, "One flash mode")]; mkJP 8 "Auto Off Timer" 2 0 0 255 []; mkJP 9 "RF Off command mode" 1 0 0 255 [(0, "Switch Off"); (1, "Ignore"); (2, "Switch Toggle"); (3, "Switch On")]].
Definition fpar363 : list jparam := [mkJP 1 "Basic Set OFF Level" 1 0 1 100 []; mkJP 2 "Basic Set ON Level" 1 0 1 100 []; mkJP 5 "Operation Mode" 1 0 0 127 []; mkJP 6 "Multi-Sensor Function Switch" 1 0 0 127 []; mkJP 7 "Customer Function" 1 0 0 127 [(16, "Preset: Notification Type = Binary")]; mkJP 10 "Auto Report Battery Time" 1 12 0 127 []; mkJP 13 "Auto Report Temperature Time" 1 12 1 127 []; mkJP 14 "Auto Report Humidity Time" 1 12 1 127 []; mkJP 15 "Auto Report Flood Time" 1 12 1 127 []; mkJP 20 "Auto Report Tick Interval" 1 30 0 254 []; mkJP 21 "Temperature Differential Report" 1 1 0 127 []; mkJP 23 "Humidity Differential Report" 1 5 0 60 []].
Definition fpar364 : list jparam := [mkJP 1 "Basic Set OFF Level" 1 0 1 100 []; mkJP 2 "Basic Set ON Level" 1 0 1 100 []; mkJP 5 "Operation Mode" 1 0 0 127 []; mkJP 6 "Multi-Sensor Function Switch" 1 0 0 127 []; mkJP 7 "Customer Function" 1 0 0 127 [(16, "Preset: Notification Type = Binary")]; mkJP 10 "Auto Report Battery Time" 1 12 0 127 []; mkJP 13 "Auto Report Temperature Time" 1 12 1 127 []; mkJP 14 "Auto Report Humidity Time" 1 12 1 127 []; mkJP 15 "Auto Report Flood Time" 1 12 1 127 []; mkJP 20 "Auto Report Tick Interval" 1 30 0 254 []; mkJP 21 "Temperature Differential Report" 1 1 0 127 []; mkJP 23 "Humidity Differential Report" 1 5 0 60 []].
Definition fpar365 : list jparam := [mkJP 5 "Operation Mode" 1 0 0 255 []; mkJP 7 "Customer Function" 1 0 0 255 []; mkJP 10 "Auto Report Battery Time" 1 12 1 127 []; mkJP 13 "Auto Report Temperature Time" 1 12 1 127 []; mkJP 14 "Auto Report Humidity Time" 1 0 1 127 []; mkJP 20 "Auto Report Tick Interval" 1 30 0 255 []; mkJP 21 "Temperature Differential Report" 1 0 1 127 []; mkJP 23 "Humidity Differential Report" 1 0 1 60 []].
Definition fpar366 : list jparam := [mkJP 1 "Basic Set OFF Level" 1 0 0 255 []; mkJP 2 "Basic Set ON Level" 1 255 0 255 []; mkJP 5 "Operation Mode" 1 0 0 255 [(0, "Flood function is enabled"); (1, "Flood function is disabled")]; mkJP 7 "Customer Function" 1 0 0 255 []; mkJP 10 "Auto Report Battery Time" 1 12 0 127 []; mkJP 15 "Auto Report Flood Time" 1 12 0 127 []; mkJP 20 "Auto Report Tick Interval" 1 30 0 255 []].
Definition fpar367 : list jparam := [mkJP 1 "Basic Set OFF Level" 1 0 0 255 []; mkJP 2 "Basic Set ON Level" 1 255 0 255 []; mkJP 5 "Disable the Flood function" 1 0 0 255 [(0, "Flood function is enabled"); (1, "Flood function is disabled")]; mkJP 7 "Customer Function" 1 0 0 255 []; mkJP 10 "Auto Report Battery Time" 1 12 0 127 []; mkJP 15 "Auto Report Flood Time" 1 12 0 127 []; mkJP 20 "Auto Report Tick Interval" 1 30 0 255 []].
Definition fpar368 : list jparam := [mkJP 7 "Costumer  Function" 4 4 0 65535 []; mkJP 29 "Disable Alarm" 4 0 0 0 []; mkJP 31 "Alarm Duration" 4 6 0 127 []].
Definition fpar369 : list jparam := [mkJP 2 "Basic Set Level" 1 (-1) (-1) 100 []; mkJP 3 "PIR Sensitivity" 1 70 0 99 []; mkJP 4 "Light Threshold" 1 100 0 100 []; mkJP 5 "Operation Mode" 1 0 0 127 []; mkJP 6 "Multi-Sensor Function Switch" 1 4 0 127 []; mkJP 8 "PIR Re-Detect Interval Time" 1 3 3 127 []; mkJP 9 "Turn Off Light Time" 1 4 4 127 []; mkJP 10 "Auto Report Battery Time" 1 12 1 127 []; mkJP 11 "Auto Report Door/Window State Time" 1 12 1 127 []; mkJP 12 "Auto Report Illumination Time" 1 12 1 127 []; mkJP 13 "Auto Report Temperature Time" 1 12 1 127 []].
Definition fpar370 : list jparam := [mkJP 1 "Basic Set OFF level" 1 0 0 99 []; mkJP 2 "Basic Set ON level" 1 99 0 99 []; mkJP 10 "Auto Report Battery Time" 1 12 0 127 []; mkJP 25 "Customer Function" 1 0 0 1 []; mkJP 26 "Disable Scene Holding report" 1 0 0 1 [(0, "Disable"); (1, "Enable")]].
Definition fpar371 : list jparam := [mkJP 2 "Basic Set Level" 1 255 1 100 [(0, "Turn light OFF"); (255, "Turn light ON")]; mkJP 3 "PIR Sensitivity" 1 70 0 99 [(0, "Disable Motion Detection")]; mkJP 4 "Light Threshold" 1 100 0 100 [(0, "Disable Illumination Detection")]; mkJP 5 "Operation Mode" 1 0 0 127 [(10, "Preset: Celsius and LED on = Bits: 00001010 = 10")]; mkJP 6 "Multi-Sensor Function Switch" 1 4 0 127 []; mkJP 7 "Customer Function" 1 4 0 127 [(22, "Preset: PIR Super Sensitivity and Binary Report and Motion Off Report ")]; mkJP 8 "PIR Re-Detect Interval Time" 1 3 1 127 []; mkJP 9 "Turn Off Light Time" 1 4 0 127 []; mkJP 10 "Auto Report Battery Time" 1 12 0 127 []; mkJP 11 "Auto Report Door/Window State Time" 1 12 0 127 []; mkJP 12 "Auto Report Illumination Time" 1 12 1 127 []; mkJP 13 "Auto Report Temperature Time" 1 12 1 127 []; mkJP 20 "Auto Report Tick Interval" 1 30 0 255 []; mkJP 21 "Temperature Differential Report" 1 1 0 127 []; mkJP 22 "Illumination Differential Report" 1 1 0 99 []].
Definition fpar372 : list jparam := [mkJP 2 "Basic Set Level" 1 (-1) (-1) 100 []; mkJP 3 "PIR Sensitivity" 1 70 0 99 []; mkJP 4 "Light Threshold" 1 100 0 100 []; mkJP 5 "Operation Mode" 1 0 0 127 []; mkJP 6 "Multi-Sensor Function Switch" 1 4 0 127 [(7, "Customer Function")]; mkJP 8 "PIR Re-Detect Interval Time" 1 3 3 127 []; mkJP 9 "Turn Off Light Time" 1 4 4 127 []; mkJP 10 "Auto Report Battery Time" 1 12 1 127 []; mkJP 12 "Auto Report Illumination Time" 1 12 1 127 []; mkJP 13 "Auto Report Temperature Time" 1 12 1 127 []].
Definition fpar373 : list jparam := [mkJP 2 "Basic Set Level" 1 (-1) (-1) 100 []; mkJP 4 "Light Threshold" 1 100 0 100 []; mkJP 5 "Operation Mode" 1 0 0 127 []; mkJP 6 "Multi-Sensor Function Switch" 1 4 0 127 []; mkJP 7 "Customer Function" 1 4 0 127 []; mkJP 8 "PIR Re-Detect Interval Time" 1 3 1 127 []; mkJP 9 "Turn Off Light Time" 1 4 0 127 []; mkJP 10 "Auto Report Battery Time" 1 12 0 127 []; mkJP 11 "Auto Report Door/Window State Time" 1 12 0 127 []; mkJP 12 "Auto Report Illumination Time" 1 12 1 127 []; mkJP 13 "Auto Report Temperature Time" 1 12 1 127 []; mkJP 20 "Auto Report Tick Interval" 1 30 0 255 []; mkJP 21 "Temperature Differential Report" 1 1 0 127 []; mkJP 22 "Illumination Differential Report" 1 1 0 99 []].
Definition fpar374 : list jparam := [mkJP 1 "Direction" 1 0 0 1 [(0, "Clockwise"); (1, "The motor goes counterclockwise when latched")]; mkJP 2 "Speed (Torque)" 1 3 1 5 [(1, "Slowest"); (2, "Slow"); (3, "Normal"); (4, "Fast"); (5, "Fastest")]; mkJP 3 "Mode" 1 1 0 2 [(0, "Powersaving"); (1, "Full drive"); (2, "Relay mode")]; mkJP 4 "Turn degrees" 1 1 1 100 []; mkJP 5 "Auto Latch time" 1 0 0 60 []; mkJP 6 "Sound" 1 1 0 1 [(0, "Disable sound"); (1, "Enable Sound")]; mkJP 7 "Battery Type" 1 1 0 2 [(0, "3,6V"); (1, "3,0V"); (2, "Mains power")]; mkJP 8 "Battery alarm" 1 0 0 100 []; mkJP 9 "TurnAndGo" 1 0 0 1 [(0, "Off"); (1, "On")]; mkJP 10 "BrakeAndGoBack	" 1 0 0 15 [(0, "Disabled"); (1, "1 second"); (2, "Brake for 2 seconds"); (3, "Brake for 3 seconds"); (4, "Brake for 4 seconds"); (5, "Brake for 5 seconds"); (6, "Brake for 6 seconds"); (7, "Brake for 7 seconds"); (8, "Brake for 8 seconds"); (9, "Brake for 9 seconds"); (10, "Brake for 10 seconds"); (11, "Brake for 11 seconds"); (12, "Brake for 12 seconds"); (13, "Brake for 13 seconds"); (14, "Brake for 14 seconds"); (15, "Brake for 15 seconds")]; mkJP 11 "Async" 1 0 0 1 [(0, "Async off"); (1, "Async on")]; mkJP 12 "ReportType" 1 0 0 2 [(0, "Default"); (1, "Advanced"); (2, "No reporting")]].
Definition fpar375 : list jparam := [mkJP 1 "Siren alarm sequence interval in seconds" 1 10 3 129 []; mkJP 2 "Siren alarm tone length" 1 10 3 129 []; mkJP 3 "Value of On-Command" 1 99 0 99 []; mkJP 4 "Value of Off-Command" 1 0 0 99 []; mkJP 5 "Status of automated meshing of smoke alarms" 1 1 0 255 [(0, "inactive"); (1, "active")]; mkJP 6 "Status of automated meshing of battery alarms" 1 1 0 255 [(0, "inactive"); (1, "active")]].
Definition fpar376 : list jparam := [mkJP 1 "Value of ON-Command" 1 99 0 99 []; mkJP 2 "Value of OFF-Command" 1 0 0 99 []].
Definition fpar377 : list jparam := [mkJP 1 "Siren  triggering mode" 1 0 0 2 [(0, "Siren  triggering mode"); (1, "Siren  triggering mode"); (2, "Siren  triggering mode")]; mkJP 2 "Temperature adjustments" 1 0 0 255 [(0, "Temperature adjustments")]; mkJP 3 "Send unsolicited  temperature report" 1 10 0 255 []; mkJP 4 "Send unsolicited  temperature report after N wake up" 2 15 0 65535 [(0, "Send unsolicited  temperature report after N wake up")]; mkJP 5 "Switch mode " 1 2 0 2 [(0, "Switch mode"); (1, "Switch mode"); (2, "Switch mode")]].
Definition fpar378 : list jparam := [mkJP 1 "Siren  triggering mode" 1 0 0 2 [(0, "Siren  triggering mode"); (1, "Siren  triggering mode"); (2, "Siren  triggering mode")]; mkJP 2 "Temperature adjustments" 1 0 0 255 [(0, "Temperature adjustments")]; mkJP 3 "Send unsolicited  temperature report" 1 10 0 255 []; mkJP 4 "Send unsolicited  temperature report after N wake up" 2 15 0 65535 [(0, "Send unsolicited  temperature report after N wake up")]; mkJP 5 "Switch mode " 1 2 0 2 [(0, "Switch mode"); (1, "Switch mode"); (2, "Switch mode")]].
Definition fpar379 : list jparam := [mkJP 1 "Siren  triggering mode" 1 0 0 2 [(0, "Siren  triggering mode"); (1, "Siren  triggering mode"); (2, "Siren  triggering mode")]; mkJP 2 "Temperature adjustments" 1 0 0 255 [(0, "Temperature adjustments")]; mkJP 3 "Send unsolicited  temperature report" 1 10 0 255 []; mkJP 4 "Send unsolicited  temperature report after N wake up" 2 15 0 65535 [(0, "Send unsolicited  temperature report after N wake up")]; mkJP 5 "Switch mode " 1 2 0 2 [(0, "Switch mode"); (1, "Switch mode"); (2, "Switch mode")]].
Definition fpar380 : list jparam := [mkJP 1 "Wind Speed Action Threshold" 1 6 0 30 []; mkJP 2 "Twilight Action Threshold" 1 37 0 100 []].
Definition fpar381 : list jparam := [mkJP 1 "Button 1 and 3 pair mode" 1 1 0 255 [(0, "Separately"); (1, "In pair without double clicks"); (2, "In pair with double clicks")]; mkJP 2 "Button 2 and 4 pair mode" 1 1 0 255 [(0, "Separately"); (1, "In pair without double clicks"); (2, "In pair with double clicks")]; mkJP 11 "Command to control Group A" 1 8 0 255 [(0, "Disabled"); (1, "Switch On/Off and Dim (send Basic Set and Switch Multilevel)"); (2, "Switch On/Off only (send Basic Set)"); (3, "Switch all"); (4, "Send Scenes"); (5, "Send Preconfigured Scenes"); (6, "Control devices in proximity"); (7, "Control door lock"); (8, "Central scene to gateway (default)")]; mkJP 12 "Command to control Group B" 1 8 0 255 [(0, "Disabled"); (1, "Switch On/Off and Dim (send Basic Set and Switch Multilevel)"); (2, "Switch On/Off only (send Basic Set)"); (3, "Switch all"); (4, "Send Scenes"); (5, "Send Preconfigured Scenes"); (6, "Control devices in proximity"); (7, "Control door lock"); (8, "Central scene to gateway (default)")]; mkJP 13 "Command to control Group C" 1 8 0 255 [(0, "Disabled"); (1, "Switch On/Off and Dim (send Basic Set and Switch Multilevel)"); (2, "Switch On/Off only (send Basic Set)"); (3, "Switch all"); (4, "Send Scenes"); (5, "Send Preconfigured Scenes"); (6, "Control devices in proximity"); (7, "Control door lock"); (8, "Central scene to gateway (default)")]; mkJP 14 "Command to control Group D" 1 8 0 255 [(0, "Disabled"); (1, "Switch On/Off and Dim (send Basic Set and Switch Multilevel)"); (2, "Switch On/Off only (send Basic Set)"); (3, "Switch all"); (4, "Send Scenes"); (5, "Send Preconfigured Scenes"); (6, "Control devices in proximity"); (7, "Control door lock"); (8, "Central scene to gateway (default)")]; mkJP 21 "Send the following Switch All commands" 1 1 0 255 [(1, "NO (Normal Open)"); (2, "NC (Normal Close)"); (255, "Switch all on and off")]; mkJP 22 "Invert buttons" 1 0 0 255 [(0, "No"); (1, "Yes")]; mkJP 25 "Blocks wake up even when Wake Up Interval is set" 1 0 0 1 [(0, "Wake up is blocked (default)"); (1, "Wake up is possible if configured accordingly")]; mkJP 30 "Send unsolicited Battery Report on Wake Up" 1 1 0 255 [(0, "No"); (1, "To same node as wake up notification"); (2, "Broadcast to neighbours")]].
Definition fpar382 : list jparam := [mkJP 1 "Button 1 and 3 pair mode" 1 1 0 255 [(0, "Separately"); (1, "In pair without double clicks (Default)"); (2, "In pair with double clicks")]; mkJP 2 "Button 2 and 4 pair mode" 1 1 0 255 [(0, "Separately"); (1, "In pair without double clicks (Default)"); (2, "In pair with double clicks")]; mkJP 11 "Command to control Group A" 1 8 0 255 [(0, "Disable"); (1, "Switch on/off and Dim (send Basic Set and Switch
					Multilevel)
		"); (2, "Switch on/off only (send Basic Set)"); (3, "Switch all"); (4, "Send scenes"); (5, "Send preconfigured scenes"); (6, "Control devices in proximity"); (7, "Control door lock"); (8, "Central scene to gateway (default)")]; mkJP 12 "Command to control Group B" 1 8 0 255 [(0, "Disable"); (1, "Switch on/off and Dim (send Basic Set and Switch
					Multilevel)
		"); (2, "Switch on/off only (send Basic Set)"); (3, "Switch all"); (4, "Send scenes"); (5, "Send preconfigured scenes"); (6, "Control devices in proximity"); (7, "Control door lock"); (8, "Central scene to gateway (default)")]; mkJP 13 "Command to control Group C" 1 8 0 255 [(0, "Disable"); (1, "Switch on/off and Dim (send Basic Set and Switch
					Multilevel)
		"); (2, "Switch on/off only (send Basic Set)"); (3, "Switch all"); (4, "Send scenes"); (5, "Send preconfigured scenes"); (6, "Control devices in proximity"); (7, "Control door lock"); (8, "Central scene to gateway (default)")]; mkJP 14 "Command to control Group D" 1 8 0 255 [(0, "Disable"); (1, "Switch on/off and Dim (send Basic Set and Switch
					Multilevel)
		"); (2, "Switch on/off only (send Basic Set)"); (3, "Switch all"); (4, "Send scenes"); (5, "Send preconfigured scenes"); (6, "Control devices in proximity"); (7, "Control door lock"); (8, "Central scene to gateway (default)")]; mkJP 21 "Send the following switch all commands" 1 1 0 255 [(1, "Switch off only (default)"); (2, "Switch on only"); (255, "Switch all on and off")]; mkJP 22 "Invert buttons" 1 0 0 255 [(0, "No (default)"); (1, "Yes")]; mkJP 25 "Block wake up even when Wake Up Interval is set" 1 0 0 255 [(0, "Wake up is blocked (default)"); (1, "Wake up is possible if configured accordingly
				")]; mkJP 30 "end unsolicited battery report on Wake Up" 1 0 0 255 [(0, "No"); (1, "To same node as Wake Up Notification (default)
				"); (2, "Broadcast to neighbors")]].
Definition fpar383 : list jparam := [mkJP 1 "Siren alarm sequence interval" 1 10 3 129 []; mkJP 2 "Siren alarm tone length" 1 8 1 99 []; mkJP 3 "Value of On-Command" 1 99 0 99 []; mkJP 4 "Value of Off-Command" 1 99 0 99 []].
Definition fpar384 : list jparam := [mkJP 1 "Siren alarm sequence interval" 1 10 3 129 []; mkJP 2 "Siren alarm tone length" 1 8 1 99 []; mkJP 3 "Value of On-Command" 1 99 0 99 []; mkJP 4 "Value of Off-Command" 1 99 0 99 []].
Definition fpar385 : list jparam := [].
Definition fpar386 : list jparam := [mkJP 1 "LED indication mode" 1 1 0 255 [(0, "Disabled"); (1, "Show switch state (default)"); (2, "Operated by Indicator Command Class")]; mkJP 2 "Automatically switch off after x seconds." 1 0 0 255 []; mkJP 3 "What to do on RF off command." 1 0 0 255 [(0, "Switch off (default)"); (1, "Ignore"); (2, "Switch on"); (3, "Switch on if load is off, else switch off")]; mkJP 5 "Restore switch state after power cycle." 1 1 0 255 [(0, "No, turn off"); (1, "Yes, default")]; mkJP 20 "Specify the consumption of the load in watts" 2 0 0 3500 []; mkJP 21 "LED Off color" 1 0 0 255 [(0, "Off"); (1, "Red"); (2, "Green"); (3, "Blue"); (4, "Yellow")]; mkJP 22 "LED On color." 1 3 0 255 [(0, "Off"); (1, "Red"); (2, "Green"); (3, "Blue"); (4, "Yellow")]].
Definition fpar387 : list jparam := [mkJP 1 "Set LED indication mode" 1 1 0 3 [(0, "Disabled"); (1, "On when switch on"); (2, "On when switch off"); (3, "Operated by command")]; mkJP 2 "Automatic switch off time" 2 0 0 65535 []; mkJP 3 "RF Off command" 1 0 0 3 [(0, "Switch OFF"); (1, "Ignore"); (2, "Switch ON"); (3, "Switch on if load is off else switch off")]; mkJP 4 "Ignore start level" 1 1 0 1 [(0, "No"); (1, "Yes")]; mkJP 5 "Speed for fast dimming" 1 30 0 255 []; mkJP 6 "Speed for slow dimming" 1 3 0 255 []; mkJP 7 "Behavior when ON received" 1 0 0 2 [(0, "Set to last dim level"); (1, "If on already, set to maximum"); (2, "Always maximum dim level")]; mkJP 8 "Baby dimming time" 1 0 0 99 []; mkJP 9 "Baby target level" 1 0 0 100 []; mkJP 10 "Baby target level" 1 50 0 100 []; mkJP 17 "Limit minimum light level" 1 1 1 95 []; mkJP 18 "Limit maximum light level" 1 1 0 99 []; mkJP 19 "Dim Level on 'Switch On'" 1 1 0 99 []; mkJP 51 "Pause before pulse" 1 28 5 60 []; mkJP 52 "Pause after pulse" 1 28 5 60 []; mkJP 53 "Pulse width" 1 10 3 20 []; mkJP 54 "Pulse type" 1 0 0 1 [(0, "Long"); (1, "Short")]].
Definition fpar388 : list jparam := [mkJP 1 "Set LED indication mode" 1 1 0 255 [(0, "Disabled"); (1, "On when switch on"); (2, "On when switch off"); (3, "Operated by command")]; mkJP 2 "Automatic switch off time" 2 0 0 65535 []; mkJP 3 "RF Off command" 1 0 0 255 [(0, "Switch OFF"); (1, "Ignore"); (2, "Switch ON"); (3, "Switch on if load is off else switch off")]; mkJP 5 "Restore switch state after power cycle" 1 1 0 255 [(0, "No - turn OFF"); (1, "Yes")]].
Definition fpar389 : list jparam := [mkJP 1 "Watt Meter Report Period" 2 720 0 65535 [(99999, "TEST")]; mkJP 2 "KWH Meter Report Period" 2 6 0 65535 []; mkJP 4 "Threshold of KWh for Load caution " 2 10000 0 65535 []; mkJP 5 "Ignore start level" 1 1 0 255 [(0, ""); (1, "Last Switch State (Default)"); (2, "Switch On")]; mkJP 11 "Ignore start level" 1 1 0 255 [(0, "Disabled"); (1, "Enabled (Default)")]].
Definition fpar390 : list jparam := [mkJP 1 "Wind Speed Action Threshold" 1 6 0 30 []; mkJP 2 "Twilight Action Threshold" 1 37 0 100 []].
Definition fpar391 : list jparam := [].
Definition fpar392 : list jparam := [mkJP 0 "Gas Metering" 1 1 0 1 [(0, "disable gas metering"); (1, "enable gas metering")]; mkJP 1 "Gas Meter resolution" 2 400 0 0 []; mkJP 2 "Electricity metering" 1 1 0 1 [(0, "disable electricity metering"); (1, "enable electricity metering")]; mkJP 3 "Electricity meter resolution" 2 400 0 0 []].
Definition fpar393 : list jparam := [].
Definition fpar394 : list jparam := [].
Definition fpar395 : list jparam := [mkJP 1 "Input 1 switch type" 1 1 0 255 [(0, "mono-stable switch type (push button)"); (1, "bi-stable switch type")]; mkJP 2 "Input 2 contact type" 1 0 0 255 [(0, "NO (normaly open) input type"); (1, " NC (normaly close) input type")]; mkJP 3 "Input 3 contact type" 1 0 0 255 [(0, "NO (normaly open) input type"); (1, " NC (normaly close) input type")]; mkJP 10 "Activate / deactivate functions ALL ON/ALL OFF" 1 255 0 255 [(0, "ALL ON is not active ALL OFF is not active"); (1, "ALL ON is not active ALL OFF active"); (2, "ALL ON active ALL OFF is not active"); (255, "ALL ON active, ALL OFF active")]; mkJP 11 "Automatic turning off relay after set time" 2 0 0 65535 []; mkJP 30 "Saving the state of the relay after a power failure" 1 0 0 255 [(0, "Flush 1relay module saves its state before power failure (it returns t"); (1, "Flush 1relay module does not save the state after a power failure, it ")]; mkJP 40 "Power reporting in Watts on power change" 1 3 0 255 []; mkJP 42 "Power reporting in Watts on power change" 2 300 0 65535 []].
Definition fpar396 : list jparam := [mkJP 1 "Input 1 switch type" 1 1 0 255 [(0, "mono-stable switch type (push button)"); (1, "bi-stable switch type")]; mkJP 2 "Input 2 contact type" 1 0 0 255 [(0, "NO (normaly open) input type"); (1, "NC (normaly close) input type")]; mkJP 3 "Input 3 contact type" 1 0 0 255 [(0, "NO (normaly open) input type"); (1, "NC (normaly close) input type")]; mkJP 10 "Activate / deactivate functions ALL ON/ALL OFF" 1 255 0 255 [(0, "ALL ON is not active ALL OFF is not active"); (1, "ALL ON is not active ALL OFF active"); (2, "ALL ON active ALL OFF is not active"); (255, "ALL ON active, ALL OFF active")]; mkJP 11 "Automatic turning off relay after set time" 2 0 0 65535 []; mkJP 12 "Automatic turning on relay after set time" 2 0 0 65535 []; mkJP 15 "Automatic turning off / on seconds or milliseconds selection" 1 0 0 255 [(0, "Seconds selected"); (1, "Milliseconds selected")]; mkJP 30 "Saving the state of the relay after a power failure" 1 0 0 255 [(0, "Flush 1relay module saves its state before power failure (it returns t"); (1, "Flush 1relay module does not save the state after a power failure, it ")]; mkJP 40 "Power reporting in Watts on power change" 1 10 0 255 []; mkJP 42 "Power reporting in Watts on power change" 2 300 0 65535 []; mkJP 63 "Output Switch selection" 1 0 0 255 [(0, "When system is turned off the output is 0V (NC)."); (1, "When system is turned off the output is 230V or 24V (NO).")]; mkJP 100 "Enable / Disable Endpoints I2 or select Notification Type and Event" 1 1 0 255 [(0, "Endpoint, I2 disabled"); (1, "Home Security; Motion Detection, unknown loc."); (2, "Carbon Monoxide; Carbon Monoxide detected, unknown location."); (3, "Carbon Dioxide; Carbon Dioxide detected, unknown location."); (4, "Water Alarm; Water Leak detected, unknown lo.."); (5, "Heat Alarm; Overheat detected, unknown loc."); (6, "Smoke Alarm; Smoke detected, unknown loc."); (9, "Sensor binary.")]; mkJP 101 "Enable / Disable Endpoints I3 or select Notification Type and Event" 1 1 0 255 [(0, "Endpoint, I3 disabled"); (1, "Home Security; Motion Detection, unknown loc."); (2, "Carbon Monoxide; Carbon Monoxide detected, unknown location."); (3, "Carbon Dioxide; Carbon Dioxide detected, unknown location."); (4, "Water Alarm; Water Leak detected, unknown lo.."); (5, "Heat Alarm; Overheat detected, unknown loc."); (6, "Smoke Alarm; Smoke detected, unknown loc."); (9, "Sensor binary.")]; mkJP 110 "Temperature sensor offset settings" 2 32536 0 65535 []; mkJP 120 "Digital temperature sensor reporting" 1 32536 0 255 []].
Definition fpar397 : list jparam := [mkJP 1 "Input 1 switch type" 1 1 0 255 [(0, "mono-stable switch type (push button)"); (1, "bi-stable switch type")]; mkJP 2 "Input 2 switch type" 1 1 0 255 [(0, "mono-stable switch type (push button)"); (1, "bi-stable switch type")]; mkJP 10 "Activate / deactivate functions ALL ON/ALL OFF" 1 255 0 255 [(0, "ALL ON is not active ALL OFF is not active"); (1, "ALL ON is not active ALL OFF active"); (2, "ALL ON active ALL OFF is not active"); (255, "ALL ON active, ALL OFF active")]; mkJP 11 "Automatic turning off relay Q1 after set time" 2 0 0 65535 []; mkJP 12 "Automatic turning off relay Q2 after set time" 2 0 0 65535 []; mkJP 30 "Saving the state of the relays Q1 and Q2 after a power failure" 1 0 0 255 [(0, "Flush 2 relays module saves its state before power failure (it returns"); (1, "Flush 2 relays module does not save the state after a power failure, i")]; mkJP 40 "Power reporting in Watts on power change for Q1" 1 1 0 255 []; mkJP 41 "Power reporting in Watts on power change for Q2" 1 1 0 255 []; mkJP 42 "Power reporting in Watts by time interval for Q1" 2 300 0 65535 []; mkJP 43 "Power reporting in Watts by time interval for Q2" 2 300 0 65535 []].
Definition fpar398 : list jparam := [mkJP 1 "Input 1 switch type" 1 1 0 255 [(0, "mono-stable switch type (push button)"); (1, "bi-stable switch type")]; mkJP 2 "Input 2 switch type" 1 1 0 255 [(0, "mono-stable switch type (push button)"); (1, "bi-stable switch type")]; mkJP 10 "Functions ALL ON/ALL OFF" 2 255 0 255 [(0, "ALL ON is not active ALL OFF is not active"); (1, "ALL ON is not active ALL OFF active"); (2, "ALL ON active ALL OFF is not active"); (255, "ALL ON active, ALL OFF active")]; mkJP 11 "Automatic turning off output Q1 after set time" 2 0 0 32535 []; mkJP 12 "Automatic turning on output Q1 after set time" 2 0 0 32535 []; mkJP 13 "Automatic turning off relay Q2 after set time" 2 0 0 32535 []; mkJP 14 "Automatic turning on output Q2 after set time" 2 0 0 32535 []; mkJP 15 "Automatic turning off / on seconds or milliseconds selection" 1 0 0 255 []; mkJP 30 "Saving the state after a power failure" 1 0 0 255 [(0, "Saves its state before power failure"); (1, "Does not save the state after a power failure")]; mkJP 40 "Power reporting in Watts for Q1" 1 10 0 100 []; mkJP 41 "Power reporting in Watts for Q2" 1 10 0 100 []; mkJP 42 "Power reporting time interval for Q1" 2 300 0 32535 []; mkJP 43 "Power reporting time interval for Q2" 2 300 0 32535 []; mkJP 63 "Output Q1 Switch selection" 1 0 0 255 [(0, "When system is turned off the output is 0V (NC)"); (1, "When system is turned off the output is 230V or 24V (NO)")]; mkJP 64 "Output Q2 Switch selection" 1 0 0 255 [(0, "When system is turned off the output is 0V (NC)"); (1, "When system is turned off the output is 230V or 24V (NO)")]; mkJP 110 "Temperature sensor offset" 2 32536 0 32536 []; mkJP 120 "Digital temperature sensor reporting" 1 5 0 127 []].
Definition fpar399 : list jparam := [mkJP 10 "ALL ON/ALL OFF" 2 255 0 255 [(0, "0 - ALL ON is not active ALL OFF is not active"); (1, "1 - ALL ON is not active ALL OFF active"); (2, "2 - ALL ON is not active ALL OFF is not active"); (255, "255 - ALL ON active, ALL OFF active")]; mkJP 40 "Power reporting in watts on power change" 1 1 0 100 []; mkJP 42 "Power reporting in Watts by time interval" 2 300 0 32767 []; mkJP 71 "Operating modes" 1 0 0 255 [(0, "0 – Shutter mode"); (1, "1 – Venetian mode (up/down and slate rotation)")]; mkJP 72 "Slats tilting full turn time" 2 150 0 32767 []; mkJP 73 "Slats position" 1 1 0 1 [(0, "0 - return to previous position for Z-wave control only"); (0, ""); (1, "1 - return to previous position in all cases")]; mkJP 74 "Motor moving up/down time" 2 0 0 32767 []; mkJP 76 "Motor operation detection" 1 10 0 127 []; mkJP 78 "Forced Shutter calibration" 1 0 0 1 [(0, "0 - Default"); (1, "1 - Start Calibration Process")]; mkJP 80 "Reporting to Controller" 1 1 0 255 [(0, "0 - Reporting to Controller Disabled"); (1, "1 - Reporting to Controller Enabled")]; mkJP 85 "Power consumption max delay time" 1 8 0 50 []; mkJP 86 "Power consumption at limit switch delay time" 1 8 3 50 []; mkJP 90 "Relay delay time" 1 5 1 30 []; mkJP 110 "Temperature sensor offset settings" 2 32536 1 32536 []; mkJP 120 "Digital temperature sensor reporting" 1 5 0 127 []].
Definition fpar400 : list jparam := [mkJP 1 "Input 1 switch type" 1 0 0 255 [(0, "mono-stable switch (push button)"); (1, "bi-stable (toggle) switch")]; mkJP 2 "Input 2 contact type" 1 0 0 255 [(0, "NO (normally open) input type"); (1, "NC (normally close) input type")]; mkJP 3 "Input 3 contact type" 1 0 0 255 [(0, "NO (normally open) input type"); (1, "NC (normally close) input type")]; mkJP 10 "Activate / deactivate functions ALL ON/ALL OFF" 1 255 0 255 [(0, "ALL ON is not active ALL OFF is not active"); (1, "ALL ON is not active ALL OFF active"); (2, "ALL ON active ALL OFF is not active"); (255, "ALL ON active, ALL OFF active")]; mkJP 30 "Saving the state of the device after a power failure" 1 0 0 255 [(0, "Flush dimmer module saves its state before power failure (it returns t"); (1, "Flush dimmer module does not save the state after a power failure, it ")]; mkJP 40 "Power reporting in Watts on power change for Q1" 1 5 0 255 []; mkJP 42 "Power reporting in Watts by time interval" 2 300 0 65535 []; mkJP 60 "Minimum dimming value" 1 1 0 255 []; mkJP 61 "Maximum dimming value" 1 99 0 255 []; mkJP 65 "Dimming time (soft on/off)" 1 100 0 255 []; mkJP 66 "Dimming time when key pressed" 1 3 0 255 []].
Definition fpar401 : list jparam := [mkJP 1 "Input 1 switch type" 1 0 0 255 [(0, "0 - Mono-stable switch type (push button)"); (1, "1 - Bi-stable switch type")]; mkJP 2 "Input 2 switch type" 1 0 0 255 [(0, "0 - Mono-stable switch type (push button)"); (1, "1 - Bi-stable switch type")]; mkJP 3 "Input 2 contact type" 1 0 0 255 [(0, "0 - NO (normally open) input type"); (1, "1 - NC (normally closed) input type")]; mkJP 4 "Input 3 contact type" 1 0 0 255 [(0, "0 - NO (normally open) input type"); (1, "1 - NC (normally closed) input type")]; mkJP 10 "Activate / deactivate functions ALL ON / ALL OFF" 2 255 0 65535 [(0, "ALL ON is not active, ALL OFF is not active"); (1, "ALL ON is not active, ALL OFF active"); (2, "ALL ON active, ALL OFF is not active"); (255, "ALL ON active, ALL OFF active")]; mkJP 11 "Automatic turning off output after set time" 2 0 0 32536 []; mkJP 12 "Automatic turning on output after set time" 2 0 0 32536 []; mkJP 20 "Enable / Disable 3-way switch" 1 0 0 255 [(0, "0 - single push button (connected to I1)"); (1, "1 - 3-way switch (connected to I1 and I2)")]; mkJP 21 "Enable / Disable Double click function" 1 0 0 255 [(0, "0 - double click disabled"); (1, "1 - double click enabled")]; mkJP 30 "Saving the state of the device after a power failure" 1 0 0 255 [(0, "0 - Save state enabled"); (1, "1 - Save state disabled")]; mkJP 40 "Power reporting in watts on power change" 1 5 0 100 []; mkJP 42 "Power reporting in Watts by time interval" 2 300 0 32767 []; mkJP 60 "Minimum dimming value" 1 1 1 98 []; mkJP 61 "Maximum dimming value" 1 99 2 99 []; mkJP 65 "Dimming time (soft on/off)" 2 100 1 255 []; mkJP 66 "Dimming time when key pressed" 2 3 1 255 []; mkJP 67 "Ignore start level" 1 0 0 255 [(0, "0 - respect start level"); (1, "1 - ignore start level")]; mkJP 68 "Dimming duration" 1 0 0 127 []; mkJP 100 "Enable / Disable Endpoints I2" 1 0 0 255 [(0, "0 – Disabled"); (1, "1 – Home Security"); (2, "2 – Carbon Monoxide"); (3, "3 – Carbon Dioxide"); (4, "4 – Water Alarm"); (5, "5 – Heat Alarm"); (6, "6 - Smoke Alarm"); (9, "9 – Sensor binary")]; mkJP 101 "Enable / Disable Endpoints I3" 1 0 0 255 [(0, "0 – Disabled"); (1, "1 – Home Security"); (2, "2 – Carbon Monoxide"); (3, "3 – Carbon Dioxide"); (4, "4 – Water Alarm"); (5, "5 – Heat Alarm"); (6, "6 - Smoke Alarm"); (9, "9 – Sensor binary")]; mkJP 110 "Temperature sensor offset settings" 2 32536 1 32536 []; mkJP 120 "Digital temperature sensor reporting" 1 5 0 127 []].
Definition fpar402 : list jparam := [mkJP 1 "Input 1 switch type" 1 1 0 255 [(0, "mono-stable switch type (push button)"); (1, "bi-stable switch type")]; mkJP 2 "Input 2 switch type" 1 1 0 255 [(0, "mono-stable switch type (push button)"); (1, "bi-stable switch type")]; mkJP 3 "Input 3 switch type" 1 1 0 255 [(0, "mono-stable switch type (push button)"); (1, "bi-stable switch type")]; mkJP 4 "Input 2 contact type" 1 0 0 255 [(0, "NO (normally open) input type"); (1, "NC (normally close) input type")]; mkJP 5 "Input 3 contact type" 1 0 0 255 [(0, "NO (normally open) input type"); (1, "NC (normally close) input type")]; mkJP 10 "Activate / deactivate functions ALL ON/ALL OFF" 1 255 0 255 [(0, "ALL ON is not active ALL OFF is not active"); (1, "ALL ON is not active ALL OFF active"); (2, "ALL ON active ALL OFF is not active"); (255, "ALL ON active, ALL OFF active")]; mkJP 11 "Set point set by I2" 2 0 0 65535 []; mkJP 12 "Set point set by I3" 2 0 0 65535 []; mkJP 30 "Saving the state of the relay after a power failure" 1 0 0 255 [(0, "Module saves its state"); (1, "Module does not save state")]; mkJP 40 "Power reporting in Watts on power change for Q1" 1 1 0 255 []; mkJP 42 "Power reporting in Watts by time interval for Q1" 2 300 0 65535 []; mkJP 43 "Hysteresis On" 1 132 0 255 []; mkJP 44 "Hysteresis Off" 1 5 0 255 []; mkJP 45 "Antifreeze" 1 5 0 255 []; mkJP 60 "Too low temperature limit" 2 50 0 65535 []; mkJP 61 "Too high temperature limit" 2 700 0 65535 []; mkJP 63 "Switch selection" 2 0 0 65535 []].
Definition fpar403 : list jparam := [mkJP 1 "Input 1 switch type" 1 1 0 255 [(0, "mono-stable switch type (push button)"); (1, "bi-stable switch type")]; mkJP 2 "Input 2 switch type" 1 1 0 255 [(0, "mono-stable switch type (push button)"); (1, "bi-stable switch type")]; mkJP 3 "Input 3 switch type" 1 1 0 255 [(0, "mono-stable switch type (push button)"); (1, "bi-stable switch type")]; mkJP 4 "Input 2 contact type" 1 0 0 255 [(0, "NO (normally open) input type"); (1, "NC (normally close) input type")]; mkJP 5 "Input 3 contact type" 1 0 0 255 [(0, "NO (normally open) input type"); (1, "NC (normally close) input type")]; mkJP 10 "Activate / deactivate functions ALL ON/ALL OFF" 1 255 0 255 [(0, "ALL ON is not active ALL OFF is not active"); (1, "ALL ON is not active ALL OFF active"); (2, "ALL ON active ALL OFF is not active"); (255, "ALL ON active, ALL OFF active")]; mkJP 11 "Set point set by I2" 2 0 0 65535 []; mkJP 12 "Set point set by I3" 2 0 0 65535 []; mkJP 40 "Power reporting in Watts on power change for Q1" 1 1 0 255 []; mkJP 42 "Power reporting in Watts by time interval for Q1" 2 300 0 65535 []; mkJP 43 "Hysteresis On" 1 132 0 255 []; mkJP 44 "Hysteresis Off" 1 5 0 255 []; mkJP 45 "Antifreeze" 1 5 0 255 []; mkJP 60 "Too low temperature limit" 2 50 0 65535 []; mkJP 61 "Too high temperature limit" 2 700 0 65535 []; mkJP 63 "Switch selection" 2 0 0 65535 []].
Definition fpar404 : list jparam := [mkJP 1 "Input 1 switch type" 1 1 0 1 [(0, "mono-stable switch type (push button)"); (1, "bi-stable switch type")]; mkJP 2 "Input 2 switch type" 1 1 0 1 [(0, "mono-stable switch type (push button)"); (1, "bi-stable switch type")]; mkJP 3 "Input 3 switch type" 1 1 0 1 [(0, "mono-stable switch type (push button)"); (1, "bi-stable switch type")]; mkJP 4 "Input 1 contact type" 1 0 0 1 [(0, "NO (normally open) input type"); (1, "NC (normally close) input type")]; mkJP 5 "Input 2 contact type" 1 0 0 1 [(0, "NO (normally open) input type"); (1, "NC (normally close) input type")]; mkJP 6 "Input 3 contact type" 1 0 0 1 [(0, "NO (normally open) input type"); (1, "NC (normally close) input type")]; mkJP 11 "Input 1 operation mode selection" 1 1 0 6 [(0, "Button does not influence on selected mode"); (1, "Comfort"); (2, "Comfort-1°C"); (3, "Comfort-2°C"); (4, "Eco Mode"); (5, "Frost Protection"); (6, " Stop")]; mkJP 12 "Input 2 operation mode selection" 1 4 0 6 [(0, "Button does not influence on selected mode"); (1, "Comfort"); (2, "Comfort-1°C"); (3, "Comfort-2°C"); (4, "Eco Mode"); (5, "Frost Protection"); (6, "Stop")]; mkJP 13 "Input 3 operation mode selection" 1 5 0 6 [(0, "Button does not influence on selected mode"); (1, "Comfort"); (2, "Comfort-1°C"); (3, "Comfort-2°C"); (4, "Eco Mode"); (5, "Frost Protection"); (6, "Stop")]; mkJP 30 "Saving the state of the device after a power failure" 1 0 0 1 [(0, "The module saves its state before power failure"); (1, "The module does not save the state")]].
Definition fpar405 : list jparam := [mkJP 1 "Input 1 switch type" 1 1 0 1 [(0, "mono-stable switch type (push button)"); (1, "bi-stable switch type")]; mkJP 2 "Input 2 switch type" 1 1 0 1 [(0, "mono-stable switch type (push button)"); (1, "bi-stable switch type")]; mkJP 3 "Input 3 switch type" 1 1 0 1 [(0, "mono-stable switch type (push button)"); (1, "bi-stable switch type")]; mkJP 4 "Input 1 contact type" 1 0 0 1 [(0, "NO (normally open) input type"); (1, "NC (normally close) input type")]; mkJP 5 "Input 2 contact type" 1 0 0 1 [(0, "NO (normally open) input type"); (1, "NC (normally close) input type")]; mkJP 6 "Input 3 contact type" 1 0 0 1 [(0, "NO (normally open) input type"); (1, "NC (normally close) input type")]; mkJP 11 "Input 1 operation mode selection" 1 1 0 6 [(0, "Button does not influence on selected mode"); (1, "Comfort"); (2, "Comfort-1°C"); (3, "Comfort-2°C"); (4, "Eco Mode"); (5, "Frost Protection"); (6, " Stop")]; mkJP 12 "Input 2 operation mode selection" 1 4 0 6 [(0, "Button does not influence on selected mode"); (1, "Comfort"); (2, "Comfort-1°C"); (3, "Comfort-2°C"); (4, "Eco Mode"); (5, "Frost Protection"); (6, "Stop")]; mkJP 13 "Input 3 operation mode selection" 1 5 0 6 [(0, "Button does not influence on selected mode"); (1, "Comfort"); (2, "Comfort-1°C"); (3, "Comfort-2°C"); (4, "Eco Mode"); (5, "Frost Protection"); (6, "Stop")]; mkJP 30 "Saving the state of the device after a power failure" 1 0 0 1 [(0, "The module saves its state before power failure"); (1, "The module does not save the state")]].
Definition fpar406 : list jparam := [mkJP 1 "Input 1 switch type" 1 1 0 1 [(0, "mono-stable switch type (push button)"); (1, "bi-stable switch type")]; mkJP 2 "Input 2 switch type" 1 1 0 1 [(0, "mono-stable switch type (push button)"); (1, "bi-stable switch type")]; mkJP 3 "Input 3 switch type" 1 1 0 1 [(0, "mono-stable switch type (push button)"); (1, "bi-stable switch type")]; mkJP 4 "Input 1 contact type" 1 0 0 1 [(0, "NO (normally open) input type"); (1, "NC (normally close) input type")]; mkJP 5 "Input 2 contact type" 1 0 0 1 [(0, "NO (normally open) input type"); (1, "NC (normally close) input type")]; mkJP 6 "Input 3 contact type" 1 0 0 1 [(0, "NO (normally open) input type"); (1, "NC (normally close) input type")]; mkJP 11 "Input 1 operation mode selection" 1 1 0 6 [(0, "Button does not influence on selected mode"); (1, "Comfort"); (2, "Comfort-1°C"); (3, "Comfort-2°C"); (4, "Eco Mode"); (5, "Frost Protection"); (6, " Stop")]; mkJP 12 "Input 2 operation mode selection" 1 4 0 6 [(0, "Button does not influence on selected mode"); (1, "Comfort"); (2, "Comfort-1°C"); (3, "Comfort-2°C"); (4, "Eco Mode"); (5, "Frost Protection"); (6, "Stop")]; mkJP 13 "Input 3 operation mode selection" 1 5 0 6 [(0, "Button does not influence on selected mode"); (1, "Comfort"); (2, "Comfort-1°C"); (3, "Comfort-2°C"); (4, "Eco Mode"); (5, "Frost Protection"); (6, "Stop")]; mkJP 30 "Saving the state of the device after a power failure" 1 0 0 1 [(0, "The module saves its state before power failure"); (1, "The module does not save the state")]].
Definition fpar407 : list jparam := [mkJP 1 "Input 1 switch type" 1 1 0 255 [(0, "mono-stable switch type (push button)"); (1, "bi-stable switch type")]; mkJP 2 "Input 2 switch type" 1 1 0 255 [(0, "mono-stable switch type (push button)"); (1, "bi-stable switch type")]; mkJP 3 "Input 3 switch type" 1 1 0 255 [(0, "mono-stable switch type (push button)"); (1, "bi-stable switch type")]; mkJP 4 "Input 1 contact type" 1 0 0 255 [(0, "NO (normally open) input type"); (1, " NC (normally close) input type")]; mkJP 5 "Input 2 contact type" 1 0 0 255 [(0, "NO (normally open) input type"); (1, " NC (normally close) input type")]; mkJP 6 "Input 3 contact type" 1 0 0 255 [(0, "NO (normally open) input type"); (1, " NC (normally close) input type")]; mkJP 10 "Activate / deactivate functions ALL ON/ALL OFF			" 1 255 0 255 [(0, "ALL ON is not active ALL OFF is not active"); (1, "ALL ON is not active ALL OFF active"); (2, "ALL ON active ALL OFF is not active"); (255, "ALL ON active, ALL OFF active")]; mkJP 11 "I1 Functionality Selection" 2 1 1 65535 []; mkJP 12 "I2 Functionality Selection" 2 65535 1 2 []; mkJP 13 "I3 Functionality Selection" 2 65535 1 65535 []; mkJP 40 "Power reporting in Watts on power change" 1 0 0 100 []; mkJP 42 "Power reporting in Watts by timer interval" 2 300 0 32767 []; mkJP 45 "Antifreeze" 1 50 0 255 []; mkJP 50 "PWM Maximum Value" 1 100 2 100 []; mkJP 51 "PWM Minimum Value" 1 0 0 99 []; mkJP 52 "PWM Cycle Duration" 1 10 1 127 []; mkJP 53 "PID Value Inside Deadband" 1 0 0 255 [(0, "PID value equals ZERO"); (1, "PID value set to LAST VALUE")]; mkJP 54 "PID Deadband" 1 5 0 127 []; mkJP 55 "Integral Sampling Time" 1 5 0 127 []; mkJP 56 "P Parameter" 2 100 0 1000 []; mkJP 57 "I Parameter" 2 1 0 1000 []; mkJP 58 "D Parameter" 2 1 0 1000 []; mkJP 59 "Thermostat Mode" 1 0 0 255 [(0, "Heat Mode"); (1, "Cool Mode")]; mkJP 60 "Too low temperature limit" 2 50 1 1000 []; mkJP 61 "Too high temperature limit" 2 700 1 1000 []; mkJP 63 "Output Switch Selection" 1 0 0 255 [(0, "When system is turned off the output is 0V (NC)
				"); (1, "When system is turned off the output is 230V (NO)
				")]; mkJP 70 "Input 1 Status on delay" 2 0 0 32000 []; mkJP 71 "Input 1 Status off delay" 2 0 0 32000 []; mkJP 72 "Input 2 Status on delay" 2 0 0 32000 []; mkJP 73 "Input 2 Status off delay" 2 0 0 32000 []; mkJP 74 "Input 3 Status on delay" 2 0 0 32000 []; mkJP 75 "Input 3 Status off delay" 2 0 0 32000 []].
Definition fpar408 : list jparam := [mkJP 1 "Input I1 switch type" 1 1 0 1 [(0, "mono-stable switch type"); (1, "bi-stable switch type")]; mkJP 2 "Input I2 switch type" 1 1 0 1 [(0, "mono-stable switch type"); (1, "bi-stable switch type")]; mkJP 3 "Input I3 switch type" 1 1 0 1 [(0, "mono-stable switch type"); (1, "bi-stable switch type")]; mkJP 4 "Input 1 contact type" 1 0 0 1 [(0, "normally open"); (1, "normally closed")]; mkJP 5 "Input 2 contact type" 1 0 0 1 [(0, "normally open"); (1, "normally closed")]; mkJP 6 "Input 3 contact type" 1 0 0 1 [(0, "normally open"); (1, "normally closed")]; mkJP 10 "Activate / deactivate ALL ON/ALL OFF" 2 255 0 255 [(0, "ALL ON is not active / ALL OFF is not active"); (1, "ALL ON is not active / ALL OFF is active"); (2, "ALL ON is active / ALL OFF is not active"); (255, "ALL ON is active / ALL OFF is active")]; mkJP 11 "I1 Functionality selection" 2 0 1 32767 [(1, "Input I1 changes the mode between Off and Heat/Cool "); (2, "Input I1 influences the heating/cooling valves"); (32767, "Input I1 doesnt  influence on the Heat/Cool process")]; mkJP 12 "I2 Functionality selection" 2 32767 0 32767 [(2000, "Input I2 influences the cooling value with condense sensor"); (32767, "Input I2 doesnt influence on the Heat/Cool process")]; mkJP 13 "I3 Functionality selection" 2 32767 1 32767 [(1, "Input I3 changes the mode between Heat and Cool "); (2, "Input I3 influences the heating/cooling valves"); (32767, "Input I3 doesnt influence on the Heat/Cool process")]; mkJP 40 "Power reporting in Watts on power change" 1 0 0 100 []; mkJP 42 "Power reporting in Watts by time interval" 2 0 0 32767 []; mkJP 45 "Antifreeze" 2 50 0 1127 []; mkJP 50 "PWM maximum value" 1 100 2 100 []; mkJP 51 "PWM minimum value" 1 0 0 99 []; mkJP 52 "PWM cycle duration" 1 10 5 127 []; mkJP 53 "PID value inside deadband" 1 0 0 127 []; mkJP 54 "PID deadband" 1 5 0 127 []; mkJP 55 "Integral sampling time" 1 5 0 127 []; mkJP 56 "P parameter" 2 100 0 1000 []; mkJP 57 "I parameter" 2 1 0 1000 []; mkJP 58 "D parameter" 2 1 0 1000 []; mkJP 59 "Thermostat mode" 1 0 0 1 [(0, "Heat mode"); (1, "Cool mode")]; mkJP 60 "Too low temperature limit" 2 50 1 1150 []; mkJP 61 "Too high temperature limit" 2 700 1 1000 []; mkJP 63 "Output switch selection" 1 0 0 1 [(0, "When the device is turned off the output is 0V"); (1, "When the system is turned off the output is 230V")]; mkJP 70 "Input I1 status on delay" 2 0 0 32000 []; mkJP 71 "Input I1 status off delay" 2 0 0 32000 []; mkJP 72 "Input I2 status on delay" 2 0 0 32000 []; mkJP 73 "Input I2 status off delay" 2 0 0 32000 []; mkJP 74 "Input I3 status on delay" 2 0 0 32000 []; mkJP 75 "Input I3 status off delay" 2 0 0 32000 []; mkJP 100 "Enable/Disable Endpoint I1 or select type" 1 0 0 9 [(0, "disabled"); (1, "Home security, motion detection"); (2, "CO - Carbon monoxid detected"); (3, "CO2 - Carbon dioxid detected"); (4, "Water alarm"); (5, "Heat alarm"); (6, "Smoke alarm"); (9, "Sensor binary")]; mkJP 101 "Enable/Disable Endpoint I2 or select type" 1 0 0 9 [(0, "disabled"); (1, "Home security, motion detection"); (2, "CO - Carbon monoxid detected"); (3, "CO2 - Carbon dioxid detected"); (4, "Water alarm"); (5, "Heat alarm"); (6, "Smoke alarm"); (9, "Sensor binary ")]; mkJP 102 "Enable/Disable Endpoint I3 or select type" 1 0 0 9 [(0, "disabled"); (1, "Home security, motion detection"); (2, "CO - Carbon monoxid detected"); (3, "CO2 - Carbon dioxid detected"); (4, "Water alarm"); (5, "Heat alarm"); (6, "Smoke alarm"); (9, "Sensor binary")]; mkJP 110 "Temperature sensor offset settings" 2 32536 0 32536 []; mkJP 120 "Digital temperature sensor reporting" 1 5 0 127 []; mkJP 121 "Digital temperature sensor / setpoint selector" 1 0 0 10 [(0, "internal sensor is mounted"); (1, "temperature is grabbed by sensor with assoc 3"); (2, "temperature is grabbed from ext battery sensor"); (4, "setpoint is grabbed by sensor with assoc 5"); (8, "setpoint is grabbed from ext battery sensor"); (10, "temperature an setpoint are grabbed from ext batt sensor")]; mkJP 122 "Node Id of external battery powered sensor" 1 0 0 254 []].
Definition fpar409 : list jparam := [mkJP 1 "Input 1 switch type" 1 1 0 255 [(0, "mono-stable switch type (push button)"); (1, "bi-stable switch type")]; mkJP 2 "Input 2 contact type" 1 0 0 255 [(0, "NO (normaly open) input type"); (1, "NC (normaly close) input type")]; mkJP 10 "Activate / deactivate functions ALL ON/ALL OFF" 1 255 0 255 [(0, "ALL ON is not active ALL OFF is not active"); (1, "ALL ON is not active ALL OFF active"); (2, "ALL ON active ALL OFF is not active"); (255, "ALL ON active, ALL OFF active")]; mkJP 11 "Automatic turning off relay after set time" 2 0 0 65535 []; mkJP 12 "Automatic turning on relay after set time" 2 0 0 65535 []; mkJP 15 "Automatic turning off / on seconds or milliseconds selection" 1 0 0 255 [(0, "Seconds selected"); (1, "Milliseconds selected")]; mkJP 30 "Saving the state of the relay after a power failure" 1 0 0 255 [(0, "Flush 1D relay module saves its state before power failure (it returns"); (1, "Flush 1D relay module does not save the state after a power failure, i")]; mkJP 63 "Output Switch selection" 1 0 0 255 [(0, "When system is turned off the output is 0V (NC)."); (1, "When system is turned off the output is 230V or 24V (NO).")]; mkJP 100 "Enable / Disable Endpoints I2 or select Notification Type and Event" 1 1 0 255 [(0, "Endpoint, I2 disabled"); (1, "Home Security; Motion Detection, unknown loc."); (2, "Carbon Monoxide; Carbon Monoxide detected, unknown location."); (3, "Carbon Dioxide; Carbon Dioxide detected, unknown location."); (4, "Water Alarm; Water Leak detected, unknown lo.."); (5, "Heat Alarm; Overheat detected, unknown loc."); (6, "Smoke Alarm; Smoke detected, unknown loc."); (9, "Sensor binary.")]; mkJP 110 "Temperature sensor offset settings" 2 32536 0 65535 []; mkJP 120 "Digital temperature sensor reporting" 1 5 0 255 []].
Definition fpar410 : list jparam := [mkJP 10 "Activate/deactivate functions ALL ON / ALL OFF " 2 255 0 65535 [(0, "ALL ON is not active, ALL OFF is not active"); (1, "ALL ON is not active ALL OFF active"); (2, "ALL ON is not active ALL OFF is not active"); (255, "ALL ON active, ALL OFF active")]; mkJP 40 "Power reporting in Watts on power change for Q1 or Q2" 1 1 0 100 []; mkJP 42 "Power reporting in Watts by time interval for Q1 or Q2" 2 300 0 32767 []; mkJP 71 "Operating modes" 1 0 0 255 [(0, "Shutter mode."); (1, "Venetian mode (up/down and slate rotation)")]; mkJP 72 "Slats tilting full turn time" 2 150 0 32767 []; mkJP 73 "Slats position" 1 1 0 255 [(0, "Slats return to previously set position only in case of Z-wave control"); (1, "Slats return to previously set position in case of Z-wave control,	pus")]; mkJP 74 "Motor moving up/down time" 2 0 0 32767 []; mkJP 76 "Motor operation detection" 1 6 0 100 []; mkJP 78 "Forced Shutter DC calibration" 1 0 0 255 [(0, "Default"); (1, "Start calibration process.")]; mkJP 85 "Power consumption max delay time" 1 8 3 50 []; mkJP 86 "Power consumption at limit switch delay time" 1 8 3 50 []; mkJP 90 "Time delay for next motor movement" 1 5 1 30 []; mkJP 110 "Temperature sensor offset settings" 2 32536 1 30 []; mkJP 120 "Digital temperature sensor reporting" 1 5 0 127 []].
Definition fpar411 : list jparam := [mkJP 1 "Input switch type" 1 0 0 255 [(0, "0 - Mono-stable switch type (push button)"); (1, "1 - Bi-stable switch type")]; mkJP 5 "Working mode" 1 0 0 1 [(0, "Dimmer"); (1, "Switch")]; mkJP 10 "Activate / deactivate functions ALL ON / ALL OFF" 2 255 0 65535 [(0, "ALL ON is not active, ALL OFF is not active"); (1, "ALL ON is not active, ALL OFF active"); (2, "ALL ON active, ALL OFF is not active"); (255, "ALL ON active, ALL OFF active")]; mkJP 11 "Automatic turning off output after set time" 2 0 0 32536 [(0, "Auto off DISABLED")]; mkJP 12 "Automatic turning on output after set time" 2 0 0 32536 [(0, "Auto on DISABLED")]; mkJP 21 "Enable / Disable Double click function" 1 0 0 255 [(0, "0 - double click disabled"); (1, "1 - double click enabled")]; mkJP 30 "Saving the state of the device after a power failure" 1 0 0 255 [(0, "0 - Save state enabled"); (1, "1 - Save state disabled")]; mkJP 40 "Power reporting in watts on power change" 1 5 0 100 []; mkJP 42 "Power reporting in Watts by time interval" 2 300 0 32767 []; mkJP 60 "Minimum dimming value" 1 1 1 98 []; mkJP 61 "Maximum dimming value" 1 99 2 99 []; mkJP 65 "Dimming time (soft on/off)" 2 100 1 255 []; mkJP 66 "Dimming time when key pressed" 2 3 1 255 []; mkJP 67 "Ignore start level" 1 0 0 255 [(0, "0 - respect start level"); (1, "1 - ignore start level")]; mkJP 68 "Dimming duration" 1 0 0 127 []; mkJP 110 "Temperature sensor offset settings" 2 32536 1 32536 []; mkJP 120 "Digital temperature sensor reporting" 1 5 0 127 []].
Definition fpar412 : list jparam := [mkJP 1 "Input 1 Switch Type" 1 0 0 255 [(0, "mono-stable switch type (push button)"); (1, "Bi-stable switch type"); (2, "Potentiometer"); (3, "Temperature sensor"); (4, "Illumination sensor"); (5, "General purpose sensor")]; mkJP 11 "Automatic turning off output after set time" 2 0 0 32536 []; mkJP 12 "Automatic turning on output after set time" 2 0 0 32535 []; mkJP 21 "Enable/Disable Double click function" 1 0 0 1 []; mkJP 30 "Saving the state of the device after a power failure" 1 0 0 1 []; mkJP 52 "Auto or manual selection" 1 0 0 1 []; mkJP 53 "PID value inside deadband" 1 0 0 1 []; mkJP 54 "PID deadband " 1 1 0 100 []; mkJP 55 "Integral sampling time " 1 5 0 127 []; mkJP 56 "P parameter" 2 100 0 1000 []; mkJP 57 "I parameter " 2 1 0 1000 []; mkJP 58 "D parameter " 2 1 0 1000 []; mkJP 60 "Minimum dimming value " 1 1 1 98 []; mkJP 61 "Maximum dimming value " 1 99 2 99 []; mkJP 65 " Dimming time (soft on/off)" 2 100 1 255 []; mkJP 66 "Dimming time when key pressed" 1 3 1 255 []; mkJP 67 " Ignore start level " 1 0 0 1 []; mkJP 68 "Dimming duration " 1 0 1 127 []; mkJP 110 "Temperature sensor offset settings" 2 32536 1 32536 []; mkJP 120 "Digital temperature sensor reporting" 1 0 0 127 []; mkJP 140 "Input I1 Sensor reporting " 2 5 0 140 []; mkJP 141 " Input I1 0-10V reporting threshold" 1 5 0 100 []; mkJP 143 "Minimum sensor range value " 2 0 0 20000 []; mkJP 144 "Maximum sensor range value " 2 1000 0 20000 []].
Definition fpar413 : list jparam := [mkJP 1 "Input switch type" 1 1 1 2 [(1, "bistable switch type"); (2, "monostable (push button) switch type")]; mkJP 2 "Switch mode" 1 1 1 3 [(1, "Normal Mode"); (2, "Brightness Mode"); (3, "Rainbow Mode")]; mkJP 3 "Auto scene mode set" 1 0 1 5 [(1, "Ocean"); (2, "Lightning"); (3, "Rainbow"); (4, "Snow"); (5, "Sun")]; mkJP 4 "Auto scene duration" 1 3 (-128) 127 []].
Definition fpar414 : list jparam := [mkJP 1 "Input switch type" 1 1 1 2 [(1, "bistable switch type"); (2, "monostable (push button) switch type")]; mkJP 2 "Switch mode" 1 1 1 3 [(1, "Normal Mode"); (2, "Brightness Mode"); (3, "Rainbow Mode")]; mkJP 3 "Auto scene mode set" 1 0 1 5 [(1, "Ocean"); (2, "Lightning"); (3, "Rainbow"); (4, "Snow"); (5, "Sun")]; mkJP 4 "Auto scene duration" 1 3 (-128) 127 []].
Definition fpar415 : list jparam := [mkJP 1 "Wind Gauge" 2 1000 0 8800 []; mkJP 2 "Rain Gauge" 2 200 0 30000 []; mkJP 3 "Wind Gauge" 1 1 0 1 []; mkJP 4 "Rain Gauge" 1 1 0 1 []; mkJP 5 "End Point 1" 1 1 0 1 []; mkJP 6 "End Point 2" 1 1 0 1 []; mkJP 7 "End Point 3" 1 1 0 1 []; mkJP 8 "End Point 4" 1 1 0 1 []; mkJP 9 "End Point 5" 1 1 0 1 []; mkJP 10 "End Point 6" 1 1 0 1 []; mkJP 11 "End Point 7" 1 1 0 1 []; mkJP 12 "End Point 8" 1 1 0 1 []; mkJP 13 "End Point 9" 1 1 0 1 []; mkJP 14 "End Point 10" 1 1 0 1 []; mkJP 15 "Random ID enable" 1 0 0 1 []; mkJP 250 "Unsecure / Secure Inclusion " 1 0 0 1 []].
Definition fpar416 : list jparam := [].
Definition fpar417 : list jparam := [].
Definition fpar418 : list jparam := [mkJP 1 "Set LED indication mode" 1 3 0 255 [(0, "Disabled"); (1, "Show switch state"); (2, "Night mode"); (3, "Remote by indicator command class")]; mkJP 2 "Automatic switch off" 2 0 0 65535 []; mkJP 3 "Function of RF off command" 1 0 0 255 [(0, "Switch OFF"); (1, "Ignore"); (2, "Switch ON"); (3, "Switch on if load is off else switch off")]; mkJP 4 "Switch on dimming by buttons" 1 1 0 255 [(0, "No"); (1, "Yes (Default)")]; mkJP 5 "Switch on dimming by buttons" 1 1 0 255 [(0, "No, turn off"); (1, "Yes (Default)")]; mkJP 10 "Typical click timeout" 1 50 1 100 []; mkJP 11 "Invert buttons" 1 0 0 255 [(0, "No"); (1, "Yes")]; mkJP 12 "Switch by buttons" 1 1 0 255 [(0, "No"); (1, "By single press and hold"); (2, "By double press and hold")]; mkJP 13 "Action on button single press or hold" 1 4 0 255 [(0, "Disabled"); (1, "Switch On, Off and dim using Basic Set"); (2, "Switch All"); (3, "Send Scenes"); (4, "Switch On/Off and Dim (send Basic Set and Switch Multilevel) (Default)"); (5, "Send Preconfigured Scenes")]; mkJP 14 "Action on button double press or hold" 1 0 0 255 [(0, "Disabled (Default)"); (1, "Switch On, Off and dim using Basic Set"); (2, "Switch All"); (3, "Send Scenes"); (4, "Switch On/Off and Dim (send Basic Set and Switch Multilevel)"); (5, "Send Preconfigured Scenes")]; mkJP 15 "Send the following switch all commands" 1 1 0 255 [((-1), "Switch all on and off"); (0, "Switch off only"); (1, "Switch on only")]; mkJP 16 "What to do on button Down press" 1 1 0 255 [(0, "Switch off (Default)"); (1, "Switch On if load is Off, else switch Off"); (3, "Switch on")]].
Definition fpar419 : list jparam := [].
Definition fpar420 : list jparam := [].
Definition fpar421 : list jparam := [].
Definition fpar422 : list jparam := [mkJP 1 "LED mode" 1 3 0 255 [(0, "Disabled"); (1, "Show working state"); (2, "Show idle state"); (3, "Operated by Indicator Command Class"); (4, "Show if not closed")]; mkJP 2 "Automatically open or close after" 2 0 0 65535 [(0, "Disabled")]; mkJP 3 "What to do on RF close command" 1 0 0 255 [(0, "Close"); (1, "Ignore"); (2, "Open"); (3, "Open if closed else close")]; mkJP 4 "Full close time" 1 60 0 255 [(0, "Keep in permanent motion")]; mkJP 5 "Full open time" 1 60 0 255 [(0, "Keep in permanent motion")]; mkJP 6 "Node ID of the blocking device" 1 0 0 232 [(0, "Disabled")]; mkJP 7 "On which command from blocking node to enable the protection" 1 0 0 255 [(0, "on On"); (1, "on Off")]; mkJP 8 "Stop or Revert if opposite button is pressed" 1 0 0 255 [(0, "Stop (by buttons and Binary)"); (1, "Revert"); (2, "Stop (by buttons, Binary and Basic)")]; mkJP 9 "Invert open and close relays" 1 0 0 255 [(0, "No"); (1, "Yes")]; mkJP 10 "Typical click timeout" 1 50 1 100 []; mkJP 11 "Invert buttons" 1 0 0 255 [(0, "No"); (1, "Yes")]; mkJP 12 "Switch by buttons" 1 1 0 255 [(0, "No"); (1, "By single press and hold"); (2, "By double press and hold")]; mkJP 13 "Action on button single press or hold" 1 4 0 255 [(0, "Disabled"); (1, "Switch On/Off (send Basic Set)"); (2, "Switch All"); (3, "Send Scenes"); (4, "Switch On/Off and Dim (send Basic Set and Switch Multilevel)"); (5, "Send Preconfigured Scenes")]; mkJP 14 "Action on button double press or hold" 1 0 0 255 [(0, "Disabled"); (1, "Switch On/Off (send Basic Set)"); (2, "Switch All"); (3, "Send Scenes"); (4, "Switch On/Off (send Basic Set)Switch On/Off and Dim (send Basic Set an"); (5, "Send Preconfigured Scenes")]; mkJP 15 "Send the following Switch All commands" 1 1 0 255 [(1, "Switch off only"); (2, "Switch on only"); (255, "Switch all on and off")]; mkJP 16 "What to do on button Down press" 1 0 0 255 [(0, "Close"); (1, "Open if closed else close"); (2, "Open")]; mkJP 17 "Action on Auto open or close function" 1 0 0 255 [(0, "Close blinds"); (1, "Open blinds")]].
Definition fpar423 : list jparam := [].
Definition fpar424 : list jparam := [].
Definition fpar425 : list jparam := [].
Definition fpar426 : list jparam := [mkJP 1 "Set LED indication mode" 1 1 0 2 [(0, "Disabled"); (1, "Show switch state"); (2, "Night mode")]; mkJP 2 "Automatic switch off" 2 0 0 65535 []; mkJP 3 "Function of RF off command" 1 0 0 3 [(0, "Switch off (default)"); (1, "Ignore"); (2, "Switch on"); (3, "Switch on if load is off else switch off")]; mkJP 4 "Switch on/off by holding buttons" 1 1 0 1 [(0, "No"); (1, "Yes (default)")]; mkJP 5 "Restore switch state after power cycle" 1 1 0 1 [(0, "No, turn off"); (1, "Yes (default)")]; mkJP 11 "Invert buttons" 1 0 0 1 [(0, "No (default)"); (1, "Yes")]; mkJP 12 "Switch by buttons" 1 1 0 2 [(0, "No"); (1, "By single press and hold (default)"); (2, "By double press and press-hold")]; mkJP 13 "Action on button single press or hold" 1 2 0 8 [(0, "Disabled"); (1, "Switch On, Off and dim"); (2, "Switch On, Off only (send Basic Set) (default)"); (3, "Switch All"); (4, "Send scenes"); (5, "Send preconfigured scenes"); (6, "Control devices in proximity"); (7, "Control door lock"); (8, "Control scene to gateway")]; mkJP 14 "Action on button double press or hold" 1 2 0 8 [(0, "Disabled"); (1, "Switch On, Off and dim"); (2, "Switch On, Off only (send Basic Set) (default)"); (3, "Switch All"); (4, "Send scenes"); (5, "Send preconfigured scenes"); (6, "Control devices in proximity"); (7, "Control door lock"); (8, "Control scene to gateway")]; mkJP 15 "Send the following switch all commands" 1 1 1 255 [(1, "Switch Off only (default)"); (2, "Switch On only"); (255, "Switch All on and off")]; mkJP 16 "What to do on button Down press" 1 0 0 2 [(0, "Switch off (default)"); (1, "Switch on if load is off else switch off"); (2, "Switch on")]; mkJP 20 "Energy consumption" 2 0 0 1800 [(0, "Disabled (default)")]].
Definition fpar427 : list jparam := [mkJP 1 "LED mode" 1 3 0 3 [(0, "Disabled"); (1, "Show switch state"); (2, "Night mode (inverted switch state)"); (3, "Operated by Indicator Command Class (Default)")]; mkJP 2 "Automatically switch off after" 2 0 0 65535 [(0, "Disabled (Default)"); (1, "Sec")]; mkJP 3 "What to do on RF off command" 1 0 0 3 [(0, "Switch off (Default)"); (1, " Ignore"); (2, "Switch on"); (3, "Switch on if load is off else switch off")]; mkJP 4 "Ignore start level" 1 1 0 1 [(0, "No"); (1, "Yes (Default)")]; mkJP 5 "Dimming speed" 1 30 0 255 [(0, "Instantly"); (30, "Default")]; mkJP 6 "Dimming long speed" 1 3 1 255 []; mkJP 7 "Set maximum light level on On click" 1 0 0 2 [(0, "No (Default)"); (1, "If already On"); (2, "Always")]].
Definition fpar428 : list jparam := [mkJP 0 "Running time" 1 0 0 255 []; mkJP 1 "Stop-functionality" 1 1 0 1 [(0, "Disabled"); (1, "Enabled (default)")]].
Definition fpar429 : list jparam := [mkJP 1 "ExternalSwitchType" 1 3 0 4 [(0, "Disable"); (1, "TypeA"); (2, "TypeB"); (3, "TypeC"); (4, "TypeD")]; mkJP 2 "Timeout" 1 0 0 240 []; mkJP 3 "NodeIdNumber" 1 0 0 232 []; mkJP 4 "OutputStatus" 1 0 0 1 []].
Definition fpar430 : list jparam := [].
Definition fpar431 : list jparam := [].
Definition fpar432 : list jparam := [mkJP 1 "Swing" 1 2 1 4 []; mkJP 2 "Differntial" 1 2 1 4 []; mkJP 3 "Set Filter Counter" 2 500 500 4000 []; mkJP 4 "Report Filter Counter" 2 0 0 9999 []; mkJP 5 "Scale of Temperature" 1 1 0 255 [(0, "Centigrade"); (1, "Farhenheit")]; mkJP 6 "Upper Limit of Setpoint A" 2 99 37 99 []; mkJP 7 "Lower Limit of Setpoint B" 2 41 5 95 []; mkJP 8 "Easy Mode" 1 1 0 255 [(0, "Easy Mode Disabled"); (1, "Easy Mode Enabled")]; mkJP 9 "Time Format" 1 1 0 255 [(0, "24 Hour Format"); (1, "12 Hour Format")]; mkJP 10 "Repeat Basic Set Counter" 1 0 0 255 []; mkJP 11 "Trigger AUTO report if room temperature is different from last report." 1 4 0 8 []; mkJP 12 "Sensor temperature calibration." 1 0 (-10) 10 []; mkJP 13 "AUTO report by time interval." 1 0 0 16 []].
Definition fpar433 : list jparam := [mkJP 25 "Indicate a location for IR code learning and start learning" 1 1 0 22 []; mkJP 26 "(Read Only) Learning status register" 1 0 0 4 []; mkJP 27 "IR code number for built-in code library" 1 0 0 255 []; mkJP 28 "External IR Emitter power level" 1 (-1) 0 255 [((-1), "High power mode"); (0, "Normal power mode")]; mkJP 32 "Surround IR control" 1 (-1) 0 255 [((-1), "Enable Surround IR Emitters"); (0, "Disable Surround IR Emitters")]; mkJP 33 "AC function Swing control" 1 1 0 255 [(0, "Swing Off"); (1, "Swing Auto")]; mkJP 35 "(Read Only) Learn location status. Bitmask." 4 0 0 65535 []; mkJP 37 "Sensor temperature compensation" 1 0 0 255 []].
Definition fpar434 : list jparam := [mkJP 25 "Indicate a location for IR code learning and start learning" 1 1 0 22 []; mkJP 26 "Learning status register (Read Only) " 1 0 0 4 []; mkJP 27 "IR code number for built-in code library" 2 0 0 65535 []; mkJP 28 "External IR Emitter power level" 1 255 0 255 [(0, "Normal power mode"); (255, "High power mode")]; mkJP 32 "Surround IR control" 1 (-1) 0 255 [((-1), "Enable Surround IR Emitters"); (0, "Disable Surround IR Emitters")]; mkJP 33 "AC function Swing control" 1 1 0 255 [(0, "Swing Off"); (1, "Swing Auto")]; mkJP 35 "Learn location status. Bitmask. (Read Only)" 4 0 0 65535 []; mkJP 37 "Sensor temperature compensation" 1 0 (-5) 5 []].
Definition fpar435 : list jparam := [].
Definition fpar436 : list jparam := [].
Definition fpar437 : list jparam := [].
Definition fpar438 : list jparam := [].
Definition fpar439 : list jparam := [].
Definition fpar440 : list jparam := [mkJP 1 "Temperature Reporting Threshold" 1 0 0 255 [(0, "Disabled"); (1, "0.5 �F"); (2, "1.0 �F"); (3, "1.5 �F"); (4, "2.0 �F")]; mkJP 3 "Utility Lock Enable/Disable" 1 0 0 255 [(0, "Utility lock disable"); (1, "Utility lock enable")]; mkJP 5 "Humidity Reporting Threshold" 1 0 0 255 [(0, "Disabled"); (1, "3% RH"); (2, "5% RH"); (3, "10%RH")]; mkJP 6 "Auxiliary/Emergency" 1 0 0 255 [(0, "Auxiliary/Emergency heat disabled"); (1, "Auxiliary/Emergency heat enable")]; mkJP 7 "Thermostat Swing Temperature" 1 1 0 255 [(1, "0.05F"); (2, "0.1F"); (8, "4F")]; mkJP 8 "Thermostat Diff Temperature" 1 4 0 255 [(4, "2.0 F"); (8, "4.0 F"); (12, "6.0 F")]].
Definition fpar441 : list jparam := [mkJP 1 "Temperature Reporting Threshold" 1 2 0 4 [(0, "Disabled"); (1, "0.5F"); (2, "1.0F"); (3, "1.5F"); (4, "2.0F")]; mkJP 3 "Utility Lock Enable/Disable" 1 0 0 255 [(0, "Utility lock disable"); (1, "Utility lock enable")]; mkJP 5 "Humidity Reporting Threshold" 1 2 0 3 [(0, "Disabled"); (1, "3%RH"); (2, "5%RH"); (3, "10%RH")]; mkJP 6 "Auxiliary/Emergency" 1 0 0 1 [(0, "Auxiliary/Emergency heat disable"); (1, "Auxiliary/Emergency heat enable")]; mkJP 7 "Swing Temperature" 1 2 1 8 [(1, "0.0F"); (2, "1F"); (3, "1.5F"); (4, "2F"); (5, "2.5F"); (6, "3F"); (7, "3.5F"); (8, "4F")]; mkJP 8 "Thermostat Diff Temperature" 2 4 4 3084 []; mkJP 9 "Thermostat Recovery Mode" 1 2 1 2 [(1, "Recovery Mode is set to fast."); (2, "Recovery Mode is set to economy.")]; mkJP 11 "Simple UI Mode Enable/Disable" 1 1 0 1 [(0, "Simple UI Mode Disabled"); (1, "Simple UI Mode Enabled")]; mkJP 12 "Multicast Enable/Disable" 1 0 0 255 [(0, "Multicast Disabled"); (1, "Function is enabled.")]].
Definition fpar442 : list jparam := [].
Definition fpar443 : list jparam := [mkJP 3 "Beeper" 1 255 0 255 [(0, "Disable"); (255, "Enable")]; mkJP 4 "Vacation Mode" 1 0 0 255 [(0, "Disable"); (255, "Enable")]; mkJP 5 "Lock & Leave" 1 255 0 255 [(0, "Disable"); (255, "Enable")]; mkJP 15 "Auto Lock" 1 0 0 255 [(0, "Disable"); (255, "Enable")]; mkJP 16 "User Code PIN Length" 1 4 4 8 []].
Definition fpar444 : list jparam := [mkJP 3 "Beeper" 1 255 0 255 [(0, "Disable Beeper"); (255, "Enable Beeper")]; mkJP 4 "Vacation Mode" 1 0 0 255 [(0, "Disable Vacation Mode"); (255, "Enable Vacation Mode")]; mkJP 5 "Lock & Leave" 1 0 0 255 [(0, "Disable Lock & Leave"); (255, "Enable Lock & Leave")]; mkJP 6 "User Slot Status" 4 0 0 255 []; mkJP 7 "Lock Specific Alarm Mode" 1 0 0 3 [(0, "Alarm Off"); (1, "Alert"); (2, "Tamper"); (3, "Forced Entry")]; mkJP 8 "Lock Specific Alarm Alert Sensitivity" 1 0 0 5 [(0, "Not Supported"); (1, "Most Sensitive"); (2, "More Sensitive"); (3, "Medium Sensitivity"); (4, "Less Sensitive"); (5, "Least Sensitive")]; mkJP 9 "Lock Specific Alarm Tamper Sensitivity" 1 0 0 5 [(0, "Not Supported"); (1, "Most Sensitive"); (2, "More Sensitive"); (3, "Medium Sensitivity"); (4, "Less Sensitive"); (5, "Least Sensitive")]; mkJP 10 "Lock Specific Alarm Kick Sensitivity" 1 0 0 5 [(0, "Not Supported"); (1, "Most Sensitive"); (2, "More Sensitive"); (3, "Medium Sensitivity"); (4, "Less Sensitive"); (5, "Least Sensitive")]; mkJP 11 "Lock Specific Alarm Disable—Local Controls" 1 0 0 255 [(0, "Disable Local Control"); (255, "Enable Local Control")]; mkJP 12 "Electronic Transition Count" 4 2147483647 0 0 []; mkJP 13 "Mechanical Transition Count" 4 0 0 2147483647 []; mkJP 14 "Electronic Failed Count" 4 0 0 2147483647 []; mkJP 15 "Auto Lock" 1 0 0 255 [(0, "Disable Auto Lock"); (255, "Enable Auto Lock")]; mkJP 16 "User Code PIN Length" 1 4 4 8 [(4, "Four Digits"); (5, "Five Digits"); (6, "Six Digits"); (7, "Seven Digits"); (8, "Eight Digits")]; mkJP 18 "Get Bootloader Version" 1 0 0 255 []].
Definition fpar445 : list jparam := [].
Definition fpar446 : list jparam := [].
Definition fpar447 : list jparam := [mkJP 1 "Notification type" 1 1 0 255 [(0, "Binary Sensor report"); (1, "Notification report"); (2, "Basic report")]; mkJP 2 "LED indication" 1 1 0 255 [(0, "Off"); (1, "On")]].
Definition fpar448 : list jparam := [].
Definition fpar449 : list jparam := [mkJP 1 "ON/OFF Delay" 2 0 0 65535 []; mkJP 2 "Basic Set Level" 1 255 0 255 []].
Definition fpar450 : list jparam := [mkJP 1 "Basic setting command" 1 99 0 255 [(0, "OFF"); (1, "Dim level (lower bound) (multilevel switch)"); (99, "Dim level (upper bound) (multilevel switch)"); (255, "ON (Binary switch)")]; mkJP 2 "OFF delay" 2 30 1 65535 []].
Definition fpar451 : list jparam := [mkJP 1 "Sensitivity Level Setting" 1 12 8 255 []; mkJP 2 "ON/OFF Duration Setting" 2 30 5 600 []; mkJP 3 "Basic Set Level" 1 255 0 255 []; mkJP 4 "Enable/Disable PIR Function" 1 255 0 255 [(0, "Disable PIR Detector Function"); (255, "Enable PIR Detector Function")]; mkJP 5 "Lux Level Set" 2 100 0 1000 []; mkJP 6 "Re-trigger Interval" 1 8 1 8 []; mkJP 7 "Light Sensor Polling Interval" 2 180 60 36000 []; mkJP 8 "Lux Level Function Enable" 1 0 0 1 [(0, "Disable Lux Level Function"); (1, "Enable Lux Level Function")]; mkJP 9 "Lux Level Changed Report" 2 100 0 255 []; mkJP 10 "LED Blink Enable" 1 1 0 1 [(0, "Disable LED blinking"); (1, "Enable LED blinking")]].
Definition fpar452 : list jparam := [].
Definition fpar453 : list jparam := [mkJP 1 "OFF Delay" 2 0 0 65535 []; mkJP 2 "Basic Set Level" 1 (-1) (-1) 99 [((-1), "ON (Binary Switch Device)"); (0, "OFF, Alarm cancelling or turning a device off")]].
Definition fpar454 : list jparam := [mkJP 1 "Meter Report Enable" 1 1 0 1 [(0, "Disable Report"); (1, "Enable Report")]; mkJP 2 "Meter Report Interval" 2 300 1 65535 []; mkJP 3 "Maxium over-load current" 1 13 1 16 []; mkJP 4 "Maximum alarm current" 1 12 1 15 []; mkJP 5 "LED enable" 1 1 0 1 [(0, "Disable LED indication Function"); (1, "Enable LED indication Function")]; mkJP 6 "Power Report Threshold" 1 5 1 100 []; mkJP 7 "Remember Relay ON/OFF status after power failure." 1 1 0 1 [(0, "Don’t Remember, the relay will keep OFF when Plug Supply Power."); (1, "Remember the Relay Status.")]; mkJP 8 "Plug Time switch Function" 1 0 0 1 [(0, "Time switch Disable"); (1, "Time switch Enable")]; mkJP 9 "Time switch Period" 2 150 1 65535 []; mkJP 10 "Button On/Off Enable" 1 1 0 1 [(0, "Disable Button"); (1, "Enable Button")]].
Definition fpar455 : list jparam := [mkJP 1 "Configure Alarm music volume" 1 2 1 3 []; mkJP 2 "Alarm music duration time" 1 2 0 255 []; mkJP 3 "Door bell music duration time" 1 1 0 255 []; mkJP 4 "Door bell music volume" 1 2 1 3 []; mkJP 5 "Alarm music index" 1 9 1 10 []; mkJP 6 "Door bell music index" 1 10 1 10 []; mkJP 7 "Default Siren on mode" 1 1 1 2 []].
Definition fpar456 : list jparam := [mkJP 1 "Device Configuration Value 1" 1 141 0 143 []; mkJP 2 "Interval for unsolicited Sensor Report Mode B" 2 30 5 65000 []].
Definition fpar457 : list jparam := [].
Definition fpar458 : list jparam := [].
Definition fpar459 : list jparam := [].
Definition fpar460 : list jparam := [].
Definition fpar461 : list jparam := [mkJP 1 "Switch All" 1 255 0 255 [(0, "Disabled"); (1, "Switch on only"); (2, "Switch off only"); (255, "Fully enabled (Default)")]].
Definition fpar462 : list jparam := [mkJP 1 "System Type (read-only)" 2 0 0 0 []; mkJP 2 "Filter - Period (read-only)" 2 12 0 0 []; mkJP 3 "Filter - Days" 2 0 0 0 []; mkJP 4 "Boost Mode Remaining Time" 2 0 0 0 []; mkJP 5 "Temperature Setpoint Step (read-only)" 2 0 0 0 []].
Definition fpar463 : list jparam := [mkJP 1 "" 1 0 0 3 [(0, "Basic"); (1, "Switch Binary"); (2, "Switch All"); (3, "Switch Multilevel")]; mkJP 2 "" 1 255 0 63 [(255, "Last value")]; mkJP 3 "" 1 0 0 1 [(0, "Normal"); (1, "Inverted")]; mkJP 4 "" 1 0 0 3 [(0, "Basic"); (1, "Switch Binary"); (2, "Switch All"); (3, "Switch Multilevel")]; mkJP 5 "" 1 255 0 63 [(255, "Last value")]; mkJP 6 "" 1 0 0 1 [(0, "Normal"); (1, "Inverted")]; mkJP 7 "" 1 1 0 1 [(0, "Off"); (1, "On")]; mkJP 8 "" 1 0 0 1 [(0, "Notification"); (1, "Sensor binary")]].
Definition fpar464 : list jparam := [mkJP 1 "Countdown timer" 1 0 0 254 []; mkJP 2 "Device status after power failure" 1 1 0 2 [(0, "Always off"); (1, "Remember status"); (2, "Always on")]; mkJP 3 "LED indicator" 1 100 0 100 []].
Definition fpar465 : list jparam := [mkJP 1 "Operation mode" 2 1 0 11 [(0, "OFF"); (1, "Heat"); (2, "Cool"); (11, "ENERGY SAVE HEAT")]].
Definition fpar466 : list jparam := [mkJP 1 "Operation mode" 2 1 0 8 [(0, "OFF"); (1, "HEAT"); (2, "COOL"); (11, "ENERGY SAVE HEAT")]; mkJP 2 "Sensor mode" 2 1 0 5 [(0, "F-mode"); (1, "A-mode"); (2, "AF-mode"); (3, "A2-mode"); (4, " P-mode"); (5, " FP-mode")]; mkJP 3 "Floor sensor type" 2 0 0 5 [(0, "10k NTC"); (1, "12k NTC"); (2, "15k NTC"); (3, "22k NTC"); (4, "33k NTC"); (5, "47k NTC")]; mkJP 4 "DIFF l. Temperature control Hysteresis" 2 5 3 30 []; mkJP 5 "FLo, Floor min limit" 2 50 50 400 []; mkJP 6 "FHi, Floor max limit" 2 400 50 400 []; mkJP 7 "ALo, Air min limit" 2 50 50 400 []; mkJP 8 "AHi, Air max limit" 2 400 50 400 []; mkJP 9 "PLo, FP-mode P setting" 2 0 0 9 []; mkJP 10 "CO mode setpoint" 2 210 50 400 []; mkJP 11 "ECO mode setpoint" 2 180 50 400 []; mkJP 12 "P setting" 2 2 0 10 []; mkJP 13 "COOL setpoint" 2 210 50 400 []].
Definition fpar467 : list jparam := [mkJP 2 "Basic Set Level" 1 (-1) (-1) 100 []; mkJP 3 "PIR Sensitivity" 1 70 0 99 []; mkJP 4 "Light Threshold" 1 100 0 100 []; mkJP 5 "Operation Mode" 1 0 0 127 []; mkJP 6 "Multi-Sensor Function Switch" 1 4 0 127 []; mkJP 8 "PIR Re-Detect Interval Time" 1 3 3 127 []; mkJP 9 "Turn Off Light Time" 1 4 4 127 []; mkJP 10 "Auto Report Battery Time" 1 12 1 127 []; mkJP 11 "Auto Report Door/Window State Time" 1 12 1 127 []; mkJP 12 "Auto Report Illumination Time" 1 12 1 127 []; mkJP 13 "Auto Report Temperature Time" 1 12 1 127 []].
Definition fpar468 : list jparam := [mkJP 1 "Watt meter report period" 2 720 1 32767 []; mkJP 2 "KWh meter report period" 2 6 1 32767 []; mkJP 3 "Watt load caution threshold" 2 1100 10 1100 []; mkJP 4 "KWh load caution threshold" 2 10000 1 10000 []].
Definition fpar469 : list jparam := [mkJP 1 "Night light" 1 1 0 1 [(0, "Disable"); (1, "Enable")]; mkJP 2 "Memory Function" 1 1 0 1 [(0, "Off"); (1, "On")]; mkJP 3 "Invert switch" 1 0 0 1 [(0, "Default"); (1, "Invert")]; mkJP 4 "LED transmission indication" 1 1 0 2 [(0, "No indication"); (1, "Temporary Indication"); (2, "Continuous Indication")]; mkJP 5 "Don't transmit to Group 4" 1 0 0 1 [(0, "Transmit to Group 4"); (1, "Don't transmit to Group 4")]].
Definition fpar470 : list jparam := [].
Definition fpar471 : list jparam := [mkJP 1 "Ignore start level" 1 1 0 1 [(0, "Ignore"); (1, "Don't ignore")]; mkJP 2 "Suspend Group 4" 1 0 0 1 [(0, "Transmit to group 4"); (1, "Disable transmitting to group 4")]; mkJP 3 "Blue LED light Behavior" 1 0 0 1 [(0, "Led on when switch on"); (1, "Night light")]; mkJP 4 "Invert Switch" 1 0 0 1 [(0, "ON on top"); (1, "OFF on top")]; mkJP 14 "Enable Shade Control Group 2" 1 0 0 1 [(0, "Inactive"); (1, "Shade Control")]; mkJP 15 "Enable Shade Control Group 3" 1 0 0 1 [(0, "Inactive"); (1, "Shade Control")]; mkJP 19 "Blue LED light behavior on transmission" 1 2 0 2 [(0, "LED does not blinks on activity"); (1, "LED blinks on activity all the time"); (2, "LED blinks on activity 1 second")]; mkJP 20 "Poll Group 2 Interval (minutes)" 1 2 1 255 []; mkJP 22 "Poll Group 2" 1 1 0 1 [(0, "Disabled"); (1, "Enabled")]].
Definition fpar472 : list jparam := [mkJP 1 "Ignore start level" 1 1 0 1 [(0, "Ignore"); (1, "Don't ignore")]; mkJP 2 "Suspend Group 4" 1 0 0 1 [(0, "Transmit to group 4"); (1, "Disable transmitting to group 4")]; mkJP 3 "Blue LED light Behavior" 1 0 0 1 [(0, "Led on when switch on"); (1, "Night light")]; mkJP 4 "Invert Switch" 1 0 0 1 [(0, "ON on top"); (1, "OFF on top")]; mkJP 14 "Enable Shade Control Group 2" 1 0 0 2 [(0, "Inactive"); (1, "Shade Control")]; mkJP 15 "Enable Shade Control Group 3" 1 0 0 1 [(0, "Inactive"); (1, "Shade Control")]; mkJP 19 "Blue LED light behavior on transmission" 1 2 0 2 [(0, "LED does not blinks on activity"); (1, "LED blinks on activity all the time"); (2, "LED blinks on activity 1 second")]; mkJP 20 "Poll Group 2 Interval (minutes)" 1 2 1 255 []; mkJP 22 "Poll Group 2" 1 1 0 2 [(0, "Disabled"); (1, "Enabled")]].
Definition fpar473 : list jparam := [mkJP 1 "LED Behavior" 1 0 0 1 [(0, "blue indicates off"); (1, "blue indicates on")]].
Definition fpar474 : list jparam := [mkJP 1 "LED Behavior" 1 0 0 255 [(0, "blue indicates off (Default)"); (1, "blue indicates on")]].
Definition fpar475 : list jparam := [mkJP 1 "LED Indicator Mode" 1 1 0 1 [(0, "Switch off = LED off"); (1, "Switch off = LED on")]; mkJP 2 "Memory Function" 1 1 0 1 [(0, "Memory function off"); (1, "Memory function on")]; mkJP 3 "Watt Meter Report Period" 2 720 1 32767 []; mkJP 4 "kWH Meter Report Period" 2 6 0 32767 []; mkJP 5 "Threshold of Watt for Load Caution" 2 3000 10 3000 []; mkJP 6 "Threshold of kWH for Load Caution" 2 10000 1 10000 []].
Definition fpar476 : list jparam := [mkJP 1 "Watt meter report interval (5s)" 2 720 1 32767 []; mkJP 2 "KWH Meter Report Interval (10min)" 2 6 1 32767 []; mkJP 3 "Threshold for Load Caution (10mA)" 2 1300 1 1300 []; mkJP 4 "Threshold of KWh for Load Caution" 2 10000 1 10000 []].
Definition fpar477 : list jparam := [mkJP 132 "Schedule Mode" 1 0 0 255 [(0, "Hold"); (1, "Schedule")]].
Definition fpar478 : list jparam := [mkJP 132 "Schedule Mode" 1 0 0 255 [(0, "Hold"); (1, "Schedule")]].
Definition fpar479 : list jparam := [].
Definition fpar480 : list jparam := [].
Definition fpar481 : list jparam := [].
Definition fpar482 : list jparam := [].
Definition fpar483 : list jparam := [].
Definition fpar484 : list jparam := [].
Definition fpar485 : list jparam := [].
Definition fpar486 : list jparam := [].
Definition fpar487 : list jparam := [mkJP 1 "Auto Report Timing" 1 60 60 255 []; mkJP 2 "Report When Wattage Changes" 2 50 5 3600 []].
Definition fpar488 : list jparam := [mkJP 1 "External switch" 1 0 0 255 [(0, "Disabled"); (255, "Enabled")]].
Definition fpar489 : list jparam := [mkJP 1 "External switch" 1 0 0 255 [(0, "Disabled"); (255, "Enabled")]].
Definition fpar490 : list jparam := [].
Definition fpar491 : list jparam := [].
Definition fpar492 : list jparam := [].
Definition fpar493 : list jparam := [mkJP 1 "" 1 1 0 255 [(1, "Set to 1 for a Single Wall Switch without
					Indicator Light or for"); (2, "Set to 2 for a Single Wall Switch with Indicator
					Light")]].
Definition fpar494 : list jparam := [].
Definition fpar495 : list jparam := [mkJP 1 "Siren Strobe Mode" 1 0 0 255 [(0, "All Enabled"); (1, "Siren Only"); (2, "Strobe Only")]; mkJP 2 "Alarm auto stop" 1 0 0 255 [(0, "30 seconds"); (1, "60 seconds"); (2, "120 seconds"); (3, "Continuous")]].
Definition fpar496 : list jparam := [mkJP 0 "Siren Strobe Mode" 1 0 0 255 [(0, "Strobe and Siren"); (1, "Siren"); (2, "Strobe")]; mkJP 1 "Alarm auto stop" 1 0 0 255 [(0, "30 seconds"); (1, "60 seconds"); (2, "120 seconds"); (3, "Continuous")]].
Definition fpar497 : list jparam := [].
Definition fpar498 : list jparam := [mkJP 1 "On time in minutes" 1 3 1 255 []; mkJP 2 "Celsius / Fahrenheit" 1 0 0 1 [(0, "Celsius"); (1, "Fahrenheit")]; mkJP 3 "Infrared sensor sensitivity adjustment" 1 4 1 7 []].
Definition fpar499 : list jparam := [mkJP 1 "On time in minutes" 1 3 1 255 []; mkJP 2 "Celsius / Fahrenheit" 1 0 0 1 [(0, "Celsius"); (1, "Fahrenheit")]; mkJP 3 "Infrared sensor sensitivity adjustment" 1 4 1 7 []].
Definition fpar500 : list jparam := [].
Definition fpar501 : list jparam := [].
Definition fpar502 : list jparam := [].
Definition fpar503 : list jparam := [].
Definition fpar504 : list jparam := [mkJP 1 "Temperature Scale" 1 0 0 1 [(0, "Celsius"); (1, "Fahrenheit")]; mkJP 2 "Temperature offset" 1 1 0 50 []; mkJP 3 "Humidity" 1 10 1 50 []; mkJP 4 "Light Sensor" 1 10 1 50 []; mkJP 5 "Trigger Interval" 1 180 1 255 []; mkJP 6 "Motion Sensor Sensitivity" 1 4 1 7 [(1, "highest"); (2, "higher"); (3, "high"); (4, "normal"); (5, "low"); (6, "lower"); (7, "lowest")]; mkJP 7 "LED indicator mode" 1 3 1 3 [(1, "Off"); (2, "Pulsing Temperature, Flashing Motion"); (3, "Flashing Temperature and Motion")]].
Definition fpar505 : list jparam := [mkJP 1 "Up output time" 1 1 1 255 []; mkJP 2 "Stop output time" 1 1 1 255 []; mkJP 3 "Down output time" 1 1 1 255 []].
Definition fpar506 : list jparam := [mkJP 1 "Device status 1 click" 1 1 1 4 [(1, "TOGGLE"); (2, "ON"); (3, "OFF"); (4, "IGNORE")]; mkJP 2 "Device status 2 click" 1 1 1 4 [(1, "TOGGLE"); (2, "ON"); (3, "OFF"); (4, "IGNORE")]].
Definition fpar507 : list jparam := [mkJP 0 "Defines how to control the devices associated to group 4 and 5." 1 100 (-1) 106 []; mkJP 1 "Outputs status upon receipt of 1 click on its command" 1 1 0 4 [(0, "IN_OUT"); (1, "TOGGLE"); (2, "ON"); (3, "OFF"); (4, "IGNORE")]; mkJP 2 "Outputs status upon receipt of 2 clicks on its command" 1 1 1 4 [(1, "TOGGLE"); (2, "ON"); (3, "OFF"); (4, "IGNORE")]; mkJP 3 "Type of outputs" 1 0 0 39 []; mkJP 4 "Number of clicks that activate the control of the associated devices" 1 2 1 2 [(1, "1 CLICK"); (2, "2 CLICKS")]; mkJP 5 "Level used to control the devices associated to group 2 and 3" 1 100 (-1) 106 []; mkJP 10 "Timer to switch OFF the Channel 1" 2 0 0 32000 []; mkJP 11 "Timer to switch OFF the Channel 2" 2 0 0 32000 []; mkJP 12 "Timer to switch ON the Channel 1" 2 0 0 32000 []; mkJP 13 "Timer to switch ON the Channel 2" 2 0 0 32000 []; mkJP 20 "Outputs status upon receipt of a Multi-Channel Basic Set command" 1 1 1 4 [(1, "AS RECEIVED"); (2, "IGNORE IF ON"); (3, "IGNORE IF OFF"); (4, "IGNORE")]; mkJP 21 "Outputs status upon receipt of a Basic Set command" 2 3 1 3 [(1, "CHANNEL 1"); (3, "BOTH CHANNELS")]; mkJP 60 "Start-up status" 1 4 0 4 [(0, "OFF_OFF"); (1, "ON_OFF"); (2, "OFF_ON"); (3, "ON_ON"); (4, "PREVIOUS STATUS")]; mkJP 61 "Configuration reset" 1 4 0 4 [(0, "FACTORY RESET"); (1, "ASSOCIATIONS RESET"); (2, "CONFIGURATIONS RESET"); (3, "RESTART DEVICE"); (4, "IGNORE")]; mkJP 62 "Type of external switch" 1 1 0 2 [(0, "IGNORE"); (1, "BUTTON"); (2, "SWITCH")]].
Definition fpar508 : list jparam := [mkJP 1 "" 1 1 0 255 [(1, "TOGGLE:ON/OFF"); (2, "ON"); (3, "OFF"); (4, "IGNORE")]; mkJP 20 "Device Status" 1 1 0 255 [(1, "AS RECEIVED"); (2, "IGNORE IF ON"); (3, "IGNORE IF OFF"); (4, "IGNORE")]; mkJP 30 "Overcurrent Level" 2 4500 0 4500 []; mkJP 31 "Overcurrent Time" 2 10 0 10800 []; mkJP 32 "Next State" 1 0 0 255 [(0, "IGNORE"); (1, "ON"); (2, "OFF"); (3, "TOGGLE")]; mkJP 33 "Meter Reset" 4 0 0 65535 [(0, "Meter parameters, including total operating time, will be reset."); (1, "Greater than 0 – IGNORE (The meter will not be reset.)")]; mkJP 34 "Energy flow" 1 1 0 255 [(1, "CONSUMED"); (2, "PRODUCED")]; mkJP 35 "UP Power Level" 2 11250 0 11250 []; mkJP 36 "UP Power Time" 2 10 0 10800 []; mkJP 37 "UP Power State" 1 0 0 255 [(0, "IGNORE"); (1, "ON"); (2, "OFF"); (3, "TOGGLE")]; mkJP 38 "UP Power Associated" 1 0 (-1) 99 []; mkJP 39 "DOWN Power Level" 2 0 0 11250 []; mkJP 40 "DOWN Power Time" 2 10 0 10800 []; mkJP 41 "DOWN Power State" 1 0 0 255 [(0, "IGNORE"); (1, "ON"); (2, "OFF"); (3, "TOGGLE")]; mkJP 42 "DOWN Power Associated" 1 0 (-1) 99 []; mkJP 43 "DOWN Power Associated" 4 2000000 0 2000000 []; mkJP 44 "Energy Limit State" 1 0 0 255 [(0, "IGNORE"); (1, "ON"); (2, "OFF"); (3, "TOGGLE")]; mkJP 45 "Variation Instantaneous Power" 1 10 1 100 []; mkJP 46 "Report Time Frequency" 1 10 1 100 []; mkJP 47 "Variation Total Energy" 1 3 0 255 [(0, "IGNORE: No report provided."); (1, "No report provided."); (2, "Report at 1 hundredth of KWh."); (3, "Report at 1 tenth of KWh"); (4, "Report at 1 KWh")]; mkJP 48 "Nominal Voltage" 2 2300 1100 2500 []; mkJP 49 "Fall In Maximum Voltage" 1 10 1 100 []; mkJP 50 "Electric parameters subjected to automatic notification" 2 0 0 62 []; mkJP 51 "Voltage RMS value" 2 0 0 65535 []; mkJP 52 "Current RMS value" 2 0 0 65535 []; mkJP 53 "Power Factor" 4 0 0 65535 []; mkJP 54 "Total energy consumed" 4 0 0 65535 []; mkJP 55 "Total energy produced" 4 0 0 65535 []; mkJP 60 "Start-up status" 1 3 0 255 [(1, "ON: Device on"); (2, "OFF: Device off"); (3, "PREVIOUS STATUS: Status prior to restart")]; mkJP 61 "Configuration reset" 1 3 0 255 [(0, "FACTORY RESET: The device is reset to the original factory settings."); (1, "ASSOCIATIONS RESET: All associations and only the associations are res"); (2, "CONFIGURATIONS RESET: The associations are maintained while all other "); (3, "IGNORE: No action is performed.")]; mkJP 62 "Type of external switch" 1 3 0 255 [(0, "IGNORE: The external switch is not connected or not present."); (1, "BUTTON: The external switch is a normally open button."); (2, "SWITCH: The external switch is a traditional switch."); (3, "AUTOMATIC RECOGNITION:")]; mkJP 63 "Load Control" 1 1 0 255 [(1, "DIRECT CONTROL"); (2, "CONTROL BY MEANS OF A CONTACTOR WITH NORMALLY OPEN COMMAND:"); (3, "CONTROL BY MEANS OF A CONTACTOR WITH NORMALLY CLOSED COMMAND:"); (4, "AS AN EXTERNAL INDICATOR:")]].
Definition fpar509 : list jparam := [].
Definition fpar510 : list jparam := [].
Definition fpar511 : list jparam := [].
Definition fpar512 : list jparam := [].
Definition fpar513 : list jparam := [].
Definition fpar514 : list jparam := [].
Definition fpar515 : list jparam := [].
Definition fpar516 : list jparam := [].
Definition fpar517 : list jparam := [].
Definition fpar518 : list jparam := [mkJP 1 "Buttons Mode" 1 0 0 3 [(0, "One push button"); (1, "Two paddles with Power and Direction"); (2, "Two toggle switch"); (3, "Two buttons with neutral position")]; mkJP 2 "Automatically close after" 2 0 0 65535 []; mkJP 3 "What to do on RF close command" 1 0 0 3 [(0, "Close"); (1, "Ignore"); (2, "Open"); (3, "Open if closed, otherwise Close")]; mkJP 4 "Typical click timeout" 1 50 0 100 []; mkJP 5 "Invert buttons" 1 0 0 1 [(0, "No"); (1, "Yes")]; mkJP 6 "Action on button press or hold" 1 1 1 2 [(1, "Switch On, Off and dim using Basic Set"); (2, "Send Scene")]; mkJP 7 "LED mode" 1 1 0 4 [(0, "Disabled"); (1, "Show working state"); (2, "Always on"); (3, "Show opened state"); (4, "Indicator Command Class")]; mkJP 10 "Full close time" 1 60 0 255 []; mkJP 11 "Full open time" 1 60 0 255 []; mkJP 12 "Node Id of the blocking device" 1 0 0 255 []; mkJP 13 "which command from blocking node to enable the protection" 1 0 0 1 [(0, "on On"); (1, "on Off")]; mkJP 14 "Invert open and close relays" 1 0 0 1 [(0, "No"); (1, "Yes")]].
Definition fpar519 : list jparam := [mkJP 1 "Reset to factory default" 1 0 0 255 [(0, "No (default)"); (1, "Execute reset")]; mkJP 2 "Command sent on external dry contact" 1 0 0 255 [(0, "Alarm Resport Type 2 (default)"); (1, "Basic On or Basic Off")]; mkJP 5 "Operating Mode" 1 1 0 255 [(1, "Normal Wakeup (default)"); (3, "Always awake")]; mkJP 6 "Temperature Offset" 2 0 1 15300 []].
Definition fpar520 : list jparam := [].
Definition fpar521 : list jparam := [mkJP 1 "Set to default" 1 0 0 0 []; mkJP 2 "Mode Timeout" 2 900 0 3600 []; mkJP 3 "Switch off time" 2 2700 0 7200 []; mkJP 4 "Sensitivity" 1 80 0 127 []; mkJP 5 "Mode" 1 2 1 3 []; mkJP 6 "The temperature offset" 2 0 (-10) 10 []].
Definition fpar522 : list jparam := [mkJP 1 "Set to Default" 1 (-1) 1 255 []; mkJP 2 "Audible feedback config" 1 15 1 255 []; mkJP 3 "Feedback timeout" 1 0 0 255 []; mkJP 4 "Feedback beeps per Second" 1 2 1 255 []; mkJP 5 "Mode" 1 1 1 255 []].
Definition fpar523 : list jparam := [mkJP 1 "Audio Volume" 1 3 1 3 [(1, "Silent"); (2, "Low"); (3, "High")]; mkJP 2 "Auto Re-lock" 1 0 0 255 [(0, "Off"); (255, "On")]; mkJP 3 "Re-lock Time" 1 30 5 255 []; mkJP 4 "Wrong Code Entry Limit" 1 5 1 7 []; mkJP 5 "Language" 1 1 1 3 [(1, "English"); (2, "Spanish"); (3, "French")]; mkJP 7 "Shutdown Time" 1 30 1 255 []; mkJP 8 "Operating Mode" 1 0 0 2 [(0, "Normal"); (1, "Vacation Mode"); (2, "Privacy Mode")]].
Definition fpar524 : list jparam := [].
Definition fpar525 : list jparam := [mkJP 1 "Audio Volume" 1 3 1 3 [(1, "Silent"); (2, "Low"); (3, "High")]; mkJP 2 "Auto Re-lock" 1 0 0 255 [(0, "Off"); (255, "On")]; mkJP 3 "Re-lock time" 1 30 5 255 []; mkJP 4 "Wrong Code Entry Limit" 1 5 1 7 []; mkJP 7 "Shutdown Time" 1 30 1 255 []; mkJP 8 "Operating Mode" 1 0 0 2 [(0, "Normal"); (1, "Vacation"); (2, "Privacy")]].
Definition fpar526 : list jparam := [mkJP 1 "Audio Mode" 1 3 0 255 [(1, "Silent"); (2, "Low"); (3, "High")]; mkJP 2 "Auto relock" 1 255 0 255 [(0, "Off"); (255, "On")]; mkJP 3 "Relock time" 1 30 5 255 []; mkJP 4 "Wrong Code Entry Limit" 1 5 1 7 []; mkJP 5 "Language" 1 1 0 255 [(1, "English"); (2, "Spanish"); (3, "French")]; mkJP 7 "Shutdown Time" 1 30 1 255 []; mkJP 8 "Operating Mode" 1 0 0 255 [(0, "Normal"); (1, "Vacation"); (2, "Privacy")]].
Definition fpar527 : list jparam := [mkJP 1 "Audio Volume" 1 3 1 3 [(1, "Silent"); (2, "Low"); (3, "High")]; mkJP 2 "Auto Re-lock" 1 0 0 255 []; mkJP 2 "Auto Re-lock" 1 0 0 255 [(0, "Off"); (255, "On")]; mkJP 3 "Re-lock Time" 1 30 5 255 []; mkJP 4 "Wrong Code Entry Limit" 1 5 1 7 []; mkJP 5 "Language" 1 1 1 3 [(1, "English"); (2, "Spanish"); (3, "French")]; mkJP 7 "Shutdown Time" 1 30 1 255 []; mkJP 8 "Operating Mode" 1 0 0 2 [(0, "Normal"); (1, "Vacation Mode"); (2, "Privacy Mode")]].
Definition fpar528 : list jparam := [mkJP 1 "Audio Volume" 1 3 1 3 [(1, "Silent"); (2, "Low"); (3, "High")]; mkJP 2 "Auto Re-lock" 1 0 0 255 [(0, "Off"); (255, "On")]; mkJP 3 "Re-lock Time" 1 30 5 255 []; mkJP 4 "Wrong Code Entry Limit" 1 5 1 7 []; mkJP 5 "Language" 1 1 1 3 [(1, "English"); (2, "Spanish"); (3, "French")]; mkJP 7 "Shutdown Time" 1 30 1 255 []; mkJP 8 "Operating Mode" 1 0 0 2 [(0, "Normal"); (1, "Vacation Mode"); (3, "Privacy Mode")]].
Definition fpar529 : list jparam := [mkJP 1 "Color temperature" 1 50 1 100 []; mkJP 2 "Shock sensor sensitivity" 1 16 0 31 []; mkJP 3 "Strobe Light Interval" 1 0 0 25 []; mkJP 4 "Strobe Light Pulse Count" 1 0 0 255 []; mkJP 5 "Enable or Disable Random Strobe Pulse Colors" 1 0 0 1 [(0, "turn off"); (1, "turn on")]].
Definition fpar530 : list jparam := [mkJP 20 "Overload Protection" 1 1 0 1 [(0, "Disabled"); (1, "Enabled")]; mkJP 21 "On/Off Status Recovery After Power Failure" 1 0 0 2 [(0, "Previous setting"); (1, "ON"); (2, "OFF")]; mkJP 24 "On/Off Status Change Notifications " 1 1 0 2 [(0, "Disabled"); (1, "Send any change"); (2, "Send manual changes")]; mkJP 27 "LED Indicator Control" 1 0 0 1 [(0, "Display power consumption always"); (1, "Display power consumption at state change")]; mkJP 151 "Power Report Value Threshold" 2 50 0 65535 []; mkJP 152 "Power Report Percentage Threshold" 1 10 0 255 []; mkJP 171 "Power Report Frequency" 4 30 0 2678400 []; mkJP 172 "Energy Report Frequency " 4 300 0 2678400 []; mkJP 173 "Voltage Report Frequency " 4 0 0 2678400 []; mkJP 174 "Electricity Report Frequency" 4 0 0 2678400 []].
Definition fpar531 : list jparam := [mkJP 1 "Metering Report" 1 1 0 1 [(0, "Disabled"); (1, "Enabled (default).")]; mkJP 2 "Metering Report Frequency" 2 300 1 65535 []; mkJP 3 "Overload Protection " 1 13 1 16 []; mkJP 4 "Overload Protection Notification" 1 12 1 13 []; mkJP 5 "LED Notifications " 1 1 0 1 [(0, "LED disabled"); (1, "LED enabled (default)")]; mkJP 6 "Power Report Percentage Threshold" 1 5 1 100 []; mkJP 7 "On/Off Status Recovery After Power Failure " 1 1 0 1 [(0, "OFF once power is restored"); (1, "Remembers the status")]; mkJP 8 "Auto Turn-Off Timer  Enable" 1 0 0 1 [(0, "timer disabled (default)"); (1, "timer enabled ")]; mkJP 9 "Auto Turn-Off Timer Interval" 2 150 1 65535 []; mkJP 10 "Manual Control" 1 1 0 1 [(0, "manual control disabled"); (1, "manual control enabled (default) ")]].
Definition fpar532 : list jparam := [mkJP 1 "Close Delay" 2 0 0 65535 []; mkJP 2 "Trigger Value" 1 255 0 255 []].
Definition fpar533 : list jparam := [mkJP 1 "Motion Sensitivity" 1 12 8 255 []; mkJP 2 "Trigger ON Duration" 2 30 5 600 []; mkJP 3 "Trigger Action" 1 255 0 255 []; mkJP 4 "Motion Detection" 1 255 0 255 []; mkJP 5 "Light Trigger Level" 2 100 0 1000 []; mkJP 6 "Motion Trigger Interval" 1 8 1 8 []; mkJP 7 "Light Polling Interval" 2 180 60 360000 []; mkJP 8 "Light Trigger" 1 0 0 255 []; mkJP 9 "Light Report" 1 255 0 255 []; mkJP 10 "LED Notifications" 1 1 0 1 []].
Definition fpar534 : list jparam := [mkJP 1 "Total Alarm Duration" 1 120 0 255 []; mkJP 2 "Audio Alarm: Beep Interval" 1 1 1 255 []; mkJP 3 "Audio Alarm: First Beep Duration" 1 60 10 255 []; mkJP 4 "Audio Alarm: Beep Duration" 1 5 5 255 []; mkJP 5 "Enable/Disable Audio Alarm" 1 1 0 1 []; mkJP 6 "Enable/Disable Water Detection" 1 1 0 1 []; mkJP 7 "Trigger Action" 1 255 0 255 []].
Definition fpar535 : list jparam := [mkJP 1 "Temperature Scale" 1 0 0 1 [(0, "Celsius"); (1, "Fahrenheit")]; mkJP 2 "Temperature offset" 1 1 0 50 []; mkJP 3 "Humidity" 1 10 1 50 []; mkJP 4 "Light Sensor" 1 10 1 50 []; mkJP 5 "Trigger Interval" 1 3 1 255 []; mkJP 6 "Motion Sensor Sensitivity" 1 4 1 7 [(1, "highest"); (2, "higher"); (3, "high"); (4, "normal"); (5, "low"); (6, "lower"); (7, "lowest")]; mkJP 7 "LED indicator mode" 1 3 1 4 [(1, "Off"); (2, "Pulsing Temperature, Flashing Motion"); (3, "Flashing Temperature and Motion"); (4, "No Temperature, Flashing Motion")]].
Definition fpar536 : list jparam := [mkJP 1 "LED mode" 1 3 0 255 [(0, "Disabled"); (1, "Show working state"); (2, "Show idle state"); (3, "Operated by Indicator Command Class"); (4, "Show if not closed")]; mkJP 2 "Automatically open or close after" 2 0 0 65535 [(0, "Disabled")]; mkJP 3 "What to do on RF close command" 1 0 0 255 [(0, "Close"); (1, "Ignore"); (2, "Open"); (3, "Open if closed else close")]; mkJP 4 "Full close time" 1 60 0 255 [(0, "Keep in permanent motion")]; mkJP 5 "Full open time" 1 60 0 255 [(0, "Keep in permanent motion")]; mkJP 6 "Node ID of the blocking device" 1 0 0 232 [(0, "Disabled")]; mkJP 7 "On which command from blocking node to enable the protection" 1 0 0 255 [(0, "on On"); (1, "on Off")]; mkJP 8 "Stop or Revert if opposite button is pressed" 1 0 0 255 [(0, "Stop (by buttons and Binary)"); (1, "Revert"); (2, "Stop (by buttons, Binary and Basic)")]; mkJP 9 "Invert open and close relays" 1 0 0 255 [(0, "No"); (1, "Yes")]; mkJP 10 "Typical click timeout" 1 50 1 100 []; mkJP 11 "Invert buttons" 1 0 0 255 [(0, "No"); (1, "Yes")]; mkJP 12 "Switch by buttons" 1 1 0 255 [(0, "No"); (1, "By single press and hold"); (2, "By double press and hold")]; mkJP 13 "Action on button single press or hold" 1 4 0 255 [(0, "Disabled"); (1, "Switch On/Off (send Basic Set)"); (2, "Switch All"); (3, "Send Scenes"); (4, "Switch On/Off and Dim (send Basic Set and Switch Multilevel)"); (5, "Send Preconfigured Scenes")]; mkJP 14 "Action on button double press or hold" 1 0 0 255 [(0, "Disabled"); (1, "Switch On/Off (send Basic Set)"); (2, "Switch All"); (3, "Send Scenes"); (4, "Switch On/Off (send Basic Set)Switch On/Off and Dim (send Basic Set an"); (5, "Send Preconfigured Scenes")]; mkJP 15 "Send the following Switch All commands" 1 1 0 255 [(1, "Switch off only"); (2, "Switch on only"); (255, "Switch all on and off")]; mkJP 16 "What to do on button Down press" 1 0 0 255 [(0, "Close"); (1, "Open if closed else close"); (2, "Open")]; mkJP 17 "Action on Auto open or close function" 1 0 0 255 [(0, "Close blinds"); (1, "Open blinds")]].
Definition fpar537 : list jparam := [mkJP 1 "Button 1 and 3 pair mode" 1 1 0 255 [(0, "Separately"); (1, "In pair without double clicks"); (2, "In pair with double clicks")]; mkJP 2 "Button 2 and 4 pair mode" 1 1 0 255 [(0, "Separately"); (1, "In pair without double clicks"); (2, "In pair with double clicks")]; mkJP 11 "Action on group 1" 1 1 0 255 [(0, "Disabled"); (1, "Switch On/Off and Dim (send Basic Set and Switch Multilevel)"); (2, "Switch On/Off only (send Basic Set)"); (3, "Switch all"); (4, "Send Scenes"); (5, "Send Preconfigured Scenes"); (6, "Control devices in proximity")]; mkJP 12 "Action on group 2" 1 1 0 255 [(0, "Disabled"); (1, "Switch On/Off and Dim (send Basic Set and Switch Multilevel)"); (2, "Switch On/Off only (send Basic Set)"); (3, "Switch all"); (4, "Send Scenes"); (5, "Send Preconfigured Scenes"); (6, "Control devices in proximity")]; mkJP 13 "Action on group 3" 1 1 0 255 [(0, "Disabled"); (1, "Switch On/Off and Dim (send Basic Set and Switch Multilevel)"); (2, "Switch On/Off only (send Basic Set)"); (3, "Switch all"); (4, "Send Scenes"); (5, "Send Preconfigured Scenes"); (6, "Control devices in proximity")]; mkJP 14 "Action on group 4" 1 1 0 255 [(0, "Disabled"); (1, "Switch On/Off and Dim (send Basic Set and Switch Multilevel)"); (2, "Switch On/Off only (send Basic Set)"); (3, "Switch all"); (4, "Send Scenes"); (5, "Send Preconfigured Scenes"); (6, "Control devices in proximity")]; mkJP 20 "Typical click timeout" 1 50 0 255 []; mkJP 21 "Send the following Switch All commands" 1 1 0 255 [((-1), "Switch all on and off"); (1, "NO (Normal Open)"); (2, "NC (Normal Close)")]; mkJP 22 "Invert buttons" 1 0 0 255 [(0, "No"); (1, "Yes")]; mkJP 24 "LED confirmation mode" 1 2 0 255 [(0, "No confirmations"); (1, "Confirm button press"); (2, "Confirm button press and delivery")]; mkJP 30 "Send unsolicited Battery Report on Wake Up" 1 0 0 255 [(0, "No"); (1, "To same node as wake up notification"); (2, "Broadcast to neighbours")]].
Definition fpar538 : list jparam := [].
Definition fpar539 : list jparam := [mkJP 1 "Button 1 and 3 pair mode" 1 1 0 255 [(0, "Separately"); (1, "In pair without double clicks"); (2, "In pair with double clicks")]; mkJP 2 "Button 2 and 4 pair mode" 1 1 0 255 [(0, "Separately"); (1, "In pair without double clicks"); (2, "In pair with double clicks")]; mkJP 11 "Action on group 1" 1 1 0 255 [(0, "Disabled"); (1, "Switch On/Off and Dim (send Basic Set and Switch Multilevel)"); (2, "Switch On/Off only (send Basic Set)"); (3, "Switch all"); (4, "Send Scenes"); (5, "Send Preconfigured Scenes"); (7, "Control Door Lock"); (8, "Central Scene to Gateway")]; mkJP 12 "Action on group 2" 1 1 0 255 [(0, "Disabled"); (1, "Switch On/Off and Dim (send Basic Set and Switch Multilevel)"); (2, "Switch On/Off only (send Basic Set)"); (3, "Switch all"); (4, "Send Scenes"); (5, "Send Preconfigured Scenes"); (7, "Control Door Lock"); (8, "Central Scene to Gateway")]; mkJP 13 "Action on group 3" 1 1 0 255 [(0, "Disabled"); (1, "Switch On/Off and Dim (send Basic Set and Switch Multilevel)"); (2, "Switch On/Off only (send Basic Set)"); (3, "Switch all"); (4, "Send Scenes"); (5, "Send Preconfigured Scenes"); (7, "Control Door Lock"); (8, "Central Scene to Gateway")]; mkJP 14 "Action on group 4" 1 1 0 255 [(0, "Disabled"); (1, "Switch On/Off and Dim (send Basic Set and Switch Multilevel)"); (2, "Switch On/Off only (send Basic Set)"); (3, "Switch all"); (4, "Send Scenes"); (5, "Send Preconfigured Scenes"); (7, "Control Door Lock"); (8, "Central Scene to Gateway")]; mkJP 21 "Send the following Switch All commands" 1 1 0 255 [(1, "NO (Normal Open)"); (2, "NC (Normal Close)"); (255, "Switch all on and off")]; mkJP 22 "Invert buttons" 1 0 0 255 [(0, "No"); (1, "Yes")]; mkJP 25 "Blocks wakeup even when wakeup interval is set" 1 0 0 255 [(0, "Wakeup is blocked"); (1, "Wakeup is possible ")]; mkJP 30 "Send unsolicited Battery Report on Wake Up" 1 0 0 255 [(0, "No"); (1, "To same node as wake up notification"); (2, "Broadcast to neighbours")]].
Definition fpar540 : list jparam := [mkJP 1 "Button 1 and 3 pair mode" 1 1 0 255 [(0, "Separately"); (1, "In pair without double clicks"); (2, "In pair with double clicks")]; mkJP 2 "Button 2 and 4 pair mode" 1 1 0 255 [(0, "Separately"); (1, "In pair without double clicks"); (2, "In pair with double clicks")]; mkJP 11 "Action on group 1" 1 1 0 255 [(0, "Disabled"); (1, "Switch On/Off and Dim (send Basic Set and Switch Multilevel)"); (2, "Switch On/Off only (send Basic Set)"); (3, "Switch all"); (4, "Send Scenes"); (5, "Send Preconfigured Scenes")]; mkJP 12 "Action on group 2" 1 1 0 255 [(0, "Disabled"); (1, "Switch On/Off and Dim (send Basic Set and Switch Multilevel)"); (2, "Switch On/Off only (send Basic Set)"); (3, "Switch all"); (4, "Send Scenes"); (5, "Send Preconfigured Scenes")]; mkJP 13 "Action on group 3" 1 1 0 255 [(0, "Disabled"); (1, "Switch On/Off and Dim (send Basic Set and Switch Multilevel)"); (2, "Switch On/Off only (send Basic Set)"); (3, "Switch all"); (4, "Send Scenes"); (5, "Send Preconfigured Scenes")]; mkJP 14 "Action on group 4" 1 1 0 255 [(0, "Disabled"); (1, "Switch On/Off and Dim (send Basic Set and Switch Multilevel)"); (2, "Switch On/Off only (send Basic Set)"); (3, "Switch all"); (4, "Send Scenes"); (5, "Send Preconfigured Scenes")]; mkJP 20 "Typical click timeout" 1 50 0 255 []; mkJP 21 "Send the following Switch All commands" 1 1 0 255 [(1, "NO (Normal Open)"); (2, "NC (Normal Close)"); (255, "Switch all on and off")]; mkJP 22 "Invert buttons" 1 0 0 255 [(0, "No"); (1, "Yes")]; mkJP 24 "Led Confirmation Mode" 1 0 0 255 [(0, "No Confirmations"); (1, "Confirm Button Press"); (2, "Confirm Button Press and delivery")]; mkJP 30 "Send unsolicited Battery Report on Wake Up" 1 0 0 255 [(0, "No"); (1, "To same node as wake up notification"); (2, "Broadcast to neighbours")]].
Definition fpar541 : list jparam := [mkJP 1 "Set LED indication mode" 1 3 0 3 [(0, "Disabled"); (1, "Show switch state"); (2, "Night mode"); (3, "Remote by indicator command class")]; mkJP 2 "Automatic switch off" 2 0 0 65535 []; mkJP 3 "Function of RF off command" 1 0 0 3 [(0, "Switch OFF"); (1, "Ignore"); (2, "Switch ON"); (3, "Switch on if load is off else switch off")]; mkJP 4 "Switch on dimming by buttons" 1 1 0 1 [(0, "No"); (1, "Yes (Default)")]; mkJP 5 "Switch on dimming by buttons" 1 1 0 1 [(0, "No, turn off"); (1, "Yes (Default)")]; mkJP 10 "Typical click timeout" 1 50 1 100 []; mkJP 11 "Invert buttons" 1 0 0 1 [(0, "No"); (1, "Yes")]; mkJP 12 "Switch by buttons" 1 1 0 2 [(0, "No"); (1, "By single press and hold"); (2, "By double press and hold")]; mkJP 13 "Action on button single press or hold" 1 4 0 5 [(0, "Disabled"); (1, "Switch On, Off and dim using Basic Set"); (2, "Switch All"); (3, "Send Scenes"); (4, "Switch On/Off and Dim (send Basic Set and Switch Multilevel) (Default)"); (5, "Send Preconfigured Scenes")]; mkJP 14 "Action on button double press or hold" 1 0 0 5 [(0, "Disabled (Default)"); (1, "Switch On, Off and dim using Basic Set"); (2, "Switch All"); (3, "Send Scenes"); (4, "Switch On/Off and Dim (send Basic Set and Switch Multilevel)"); (5, "Send Preconfigured Scenes")]; mkJP 15 "Send the following switch all commands" 1 1 0 255 [((-1), "Switch all on and off"); (0, "Switch off only"); (1, "Switch on only")]; mkJP 16 "What to do on button Down press" 1 1 0 2 [(0, "Switch off (Default)"); (1, "Switch On if load is Off, else switch Off"); (2, "Switch on")]].
Definition fpar542 : list jparam := [mkJP 1 "LED mode" 1 3 0 3 [(0, "Disabled"); (1, "Show switch state"); (2, "Night mode (inverted switch state)"); (3, "Operated by Indicator Command Class (Default)")]; mkJP 2 "Automatically switch off after" 2 0 0 65535 [(0, "Disabled (Default)"); (1, "Sec")]; mkJP 3 "What to do on RF off command" 1 0 0 3 [(0, "Switch off (Default)"); (1, " Ignore"); (2, "Switch on"); (3, "Switch on if load is off else switch off")]; mkJP 4 "Ignore start level" 1 1 0 1 [(0, "No"); (1, "Yes (Default)")]; mkJP 5 "Dimming speed" 1 30 0 255 [(0, "Instantly"); (30, "Default")]; mkJP 6 "Dimming long speed" 1 3 1 255 []; mkJP 7 "Set maximum light level on On click" 1 0 0 2 [(0, "No (Default)"); (1, "If already On"); (2, "Always")]].
Definition fpar543 : list jparam := [mkJP 1 "LED mode" 1 3 0 255 [(0, "Disabled"); (1, "Show working state"); (2, "Show idle state"); (3, "Operated by Indicator Command Class"); (4, "Show if not closed")]; mkJP 2 "Automatically open or close after" 2 0 0 65535 [(0, "Disabled")]; mkJP 3 "What to do on RF close command" 1 0 0 255 [(0, "Close"); (1, "Ignore"); (2, "Open"); (3, "Open if closed else close")]; mkJP 4 "Full close time" 1 60 0 255 [(0, "Keep in permanent motion")]; mkJP 5 "Full open time" 1 60 0 255 [(0, "Keep in permanent motion")]; mkJP 6 "Node ID of the blocking device" 1 0 0 232 [(0, "Disabled")]; mkJP 7 "On which command from blocking node to enable the protection" 1 0 0 255 [(0, "on On"); (1, "on Off")]; mkJP 8 "Stop or Revert if opposite button is pressed" 1 0 0 255 [(0, "Stop (by buttons and Binary)"); (1, "Revert"); (2, "Stop (by buttons, Binary and Basic)")]; mkJP 9 "Invert open and close relays" 1 0 0 255 [(0, "No"); (1, "Yes")]; mkJP 10 "Typical click timeout" 1 50 0 100 []; mkJP 11 "Invert buttons" 1 0 0 255 [(0, "No"); (1, "Yes")]; mkJP 12 "Switch by buttons" 1 1 0 255 [(0, "No"); (1, "By single press and hold"); (2, "By double press and hold")]; mkJP 13 "Action on button single press or hold" 1 4 0 255 [(0, "Disabled"); (1, "Switch On/Off (send Basic Set)"); (2, "Switch All"); (3, "Send Scenes"); (4, "Switch On/Off and Dim (send Basic Set and Switch Multilevel)"); (5, "Send Preconfigured Scenes")]; mkJP 14 "Action on button double press or hold" 1 0 0 255 [(0, "Disabled"); (1, "Switch On/Off (send Basic Set)"); (2, "Switch All"); (3, "Send Scenes"); (4, "Switch On/Off and Dim (send Basic Set and Switch Multilevel)"); (5, "Send Preconfigured Scenes")]; mkJP 15 "Send the following Switch All commands" 1 1 0 255 [(1, "Switch off only"); (2, "Switch on only"); (255, "Switch all on and off")]; mkJP 16 "What to do on button Down press" 1 0 0 255 [(0, "Close"); (1, "Open if closed else close"); (2, "Open")]; mkJP 17 "Action on Auto open or close function" 1 0 0 255 [(0, "Close blinds"); (1, "Open blinds")]].
Definition fpar544 : list jparam := [mkJP 1 "Set LED indication mode" 1 1 0 255 [(0, "Disabled"); (1, "Show switch state"); (2, "night light (inverted state)")]; mkJP 2 "Automatically switch off first channel after" 2 0 0 65535 []; mkJP 3 "Function of RF off command on first channel" 1 0 0 255 [(0, "Switch OFF"); (1, "Ignore"); (2, "Switch ON"); (3, "Switch on if load is off else switch off")]; mkJP 4 "Switch on/off by holding buttons" 1 1 0 255 [(0, "No"); (1, "Yes (only for the first channel)"); (2, "Yes (only for the second channel)"); (3, "Yes (for both channels)")]; mkJP 5 "Restore switch state after power cycle" 1 1 0 255 [(0, "No, turn off"); (1, "Yes (only for the first channel)"); (2, "Yes (only for the second channel)"); (3, "Yes (for both channels)")]; mkJP 11 "Invert buttons" 1 0 0 255 [(0, "No"); (1, "Yes")]; mkJP 12 "Switch by buttons (first channel)" 1 1 0 255 [(0, "No"); (1, "By single press and hold"); (2, "By double press and press-hold")]; mkJP 13 "Action on button single press or hold" 1 2 0 255 [(0, "Disabled"); (1, "Switch On/Off only (send Basic Set)"); (2, "Switch On/Off and Dim (send Basic Set and Switch Multilevel)"); (3, "Scene activation")]; mkJP 14 "Action on button double press or hold" 1 2 0 255 [(0, "Disabled"); (1, "Switch On/Off only (send Basic Set)"); (2, "Switch On/Off and Dim (send Basic Set and Switch Multilevel)"); (3, "Scene activation")]; mkJP 16 "What to do on button Down press (for both channels)" 1 1 0 255 [(0, "Switch off"); (1, "Switch On if load is Off, else switch Off"); (2, "Switch on")]; mkJP 20 "Energy consumption for first channel" 2 0 0 1800 [(0, "Disabled")]; mkJP 22 "Automatically switch off second channel after" 2 0 0 65535 []; mkJP 23 "Function of RF off command on second channel" 1 0 0 255 [(0, "Switch OFF"); (1, "Ignore"); (2, "Switch ON"); (3, "Switch on if load is off else switch off")]; mkJP 32 "Switch by buttons (second channel)" 1 2 0 255 [(0, "No"); (1, "By single press and hold"); (2, "By double press and press-hold")]; mkJP 40 "Energy consumption for second channel" 2 0 0 1800 [(0, "Disabled")]].
Definition fpar545 : list jparam := [mkJP 1 "Set LED indication mode" 1 2 0 2 [(0, "Disabled"); (1, "Show switch state"); (2, "Operated by Indicator Command Class")]; mkJP 2 "Automatic switch off" 2 0 0 65535 []; mkJP 3 "Function of RF off command" 1 0 0 255 [(0, "Switch OFF"); (1, "Ignore"); (2, "Switch ON"); (3, "Switch on if load is off else switch off")]; mkJP 5 "Restore switch state after power cycle" 1 1 0 255 [(0, "No, turn off"); (1, "Yes (Default)")]; mkJP 20 "Energy consumption" 2 0 0 1800 []; mkJP 21 "Off Color" 1 0 0 255 [(0, "Off"); (1, "Red"); (2, "Green"); (3, "Blue"); (4, "Yellow")]; mkJP 22 "On Color" 1 3 0 255 [(0, "Off"); (1, "Red"); (2, "Green"); (3, "Blue"); (4, "Yellow")]].
Definition fpar546 : list jparam := [mkJP 10 "Typical click timeout" 1 50 1 100 []; mkJP 11 "Invert buttons" 1 0 0 255 [(0, "No"); (1, "Yes")]; mkJP 13 "Action on button single press or hold" 1 1 0 255 [(0, "Disabled"); (1, "Switch On, Off and dim using Basic Set"); (2, "Switch All"); (3, "Scenes")]; mkJP 14 "Action on button double press or hold" 1 1 0 255 [(0, "Disabled"); (1, "Switch On, Off and dim using Basic Set"); (2, "Switch All"); (3, "Scenes")]; mkJP 15 "Send the following Switch All commands" 1 0 0 255 [(1, "Switch OFF Only"); (2, "Switch ON Only"); (255, "Switch all on and off")]; mkJP 20 "Send unsolicited Battery Report on Wake Up" 1 0 0 255 [(0, "No"); (1, "To same node as wake up notification"); (2, "Broadcast to neighbours")]].
Definition fpar547 : list jparam := [mkJP 1 "Boost Dry mode duration" 2 1800 0 0 []; mkJP 2 "Button mode" 1 0 0 0 [(0, "Toggle Normal Heating / Off"); (1, "Toggle Normal Heating / Energy Save"); (2, "Toggle Boost Dry")]; mkJP 3 "Basic mode" 1 0 0 0 [(0, "Toggle Normal Heating / Off"); (1, "Toggle Normal Heating / Energy Save"); (2, "Toggle Boost Dry"); (3, "Set Normal Heating set point temperature (in 0.1 C units)"); (4, "Switch on/off relay directly (only if Thermostat Mode is in Off state)")]; mkJP 4 "Temperature control interval" 1 18 1 60 []; mkJP 5 "Maximum allowed temperature deviation" 1 30 1 60 []; mkJP 6 "Maximal allowed temperature" 1 27 20 55 []; mkJP 10 "Typical click timeout" 1 50 1 100 []].
Definition fpar548 : list jparam := [mkJP 1 "Button 1 and 3 pair mode " 1 1 0 255 [(0, "Separately"); (1, "In pair without double clicks"); (2, "In pair with double clicks")]; mkJP 2 "Button 2 and 4 pair mode " 1 1 0 255 [(0, "Separately"); (1, "In pair without double clicks"); (2, "In pair with double clicks")]; mkJP 11 "Command to Control Group A" 1 8 0 255 [(0, "Disabled"); (1, "Switch On/Off and Dim (send Basic Set and Switch Multilevel)"); (2, "Switch On/Off only (send Basic Set)"); (3, "Switch All"); (4, "Send Scenes"); (5, "Send Preconfigured Scenes"); (6, "Control devices in proximity"); (7, "Control DoorLock"); (8, "Central Scene to Gateway")]; mkJP 12 "Command to Control Group B" 1 8 0 255 [(0, "Disabled"); (1, "Switch On/Off and Dim (send Basic Set and Switch Multilevel)"); (2, "Switch On/Off only (send Basic Set)"); (3, "Switch All"); (4, "Send Scenes"); (5, "Send Preconfigured Scenes"); (6, "Control devices in proximity"); (7, "Control DoorLock"); (8, "Central Scene to Gateway")]; mkJP 13 "Command to Control Group C" 1 8 0 255 [(0, "Disabled"); (1, "Switch On/Off and Dim (send Basic Set and Switch Multilevel)"); (2, "Switch On/Off only (send Basic Set)"); (3, "Switch All"); (4, "Send Scenes"); (5, "Send Preconfigured Scenes"); (6, "Control devices in proximity"); (7, "Control DoorLock"); (8, "Central Scene to Gateway")]; mkJP 14 "Command to Control Group D" 1 8 0 255 [(0, "Disabled"); (1, "Switch On/Off and Dim (send Basic Set and Switch Multilevel)"); (2, "Switch On/Off only (send Basic Set)"); (3, "Switch All"); (4, "Send Scenes"); (5, "Send Preconfigured Scenes"); (6, "Control devices in proximity"); (7, "Control DoorLock"); (8, "Central Scene to Gateway")]; mkJP 21 "Send the following Switch All commands" 1 1 0 255 [(1, "Switch off only"); (2, "Switch on only"); (255, "Switch all on and off")]; mkJP 22 "Invert buttons" 1 0 0 255 [(0, "No"); (1, "Yes")]; mkJP 25 "Blocks wakeup even when wakeup interval is set " 1 0 0 255 [(0, "Wakeup is blocked"); (1, "Wakeup is possible if configured accordingly")]; mkJP 30 "Send unsolicited Battery Report on Wake Up" 1 1 0 255 [(0, "No"); (1, "To same node as wake up notification"); (2, "Broadcast to neighbors")]].
Definition fpar549 : list jparam := [mkJP 10 "Command to Control Group No1 (association group 2)" 1 1 0 255 [(0, "Disabled"); (1, "Switch On/Off and Dim (send Basic Set and Switch Multilevel)"); (2, "Switch On/Off only (send Basic Set)"); (3, "Switch All"); (4, "Send Scenes"); (5, "Send Preconfigured Scenes")]; mkJP 11 "Command to Control Group No2 (association group 3)" 1 1 0 255 [(0, "Disabled"); (1, "Switch On/Off and Dim (send Basic Set and Switch Multilevel)"); (2, "Switch On/Off only (send Basic Set)"); (3, "Switch All"); (4, "Send Scenes"); (5, "Send Preconfigured Scenes")]; mkJP 12 "Command to Control Group No3 (association group 4)" 1 1 0 255 [(0, "Disabled"); (1, "Switch On/Off and Dim (send Basic Set and Switch Multilevel)"); (2, "Switch On/Off only (send Basic Set)"); (3, "Switch All"); (4, "Send Scenes"); (5, "Send Preconfigured Scenes")]; mkJP 13 "Command to Control Group No4 (association group 5)" 1 1 0 255 [(0, "Disabled"); (1, "Switch On/Off and Dim (send Basic Set and Switch Multilevel)"); (2, "Switch On/Off only (send Basic Set)"); (3, "Switch All"); (4, "Send Scenes"); (5, "Send Preconfigured Scenes")]; mkJP 14 "Command to Control Group No5 (association group 6)" 1 1 0 255 [(0, "Disabled"); (1, "Switch On/Off and Dim (send Basic Set and Switch Multilevel)"); (2, "Switch On/Off only (send Basic Set)"); (3, "Switch All"); (4, "Send Scenes"); (5, "Send Preconfigured Scenes")]; mkJP 15 "Command to Control Group No6 (association group 7)" 1 1 0 255 [(0, "Disabled"); (1, "Switch On/Off and Dim (send Basic Set and Switch Multilevel)"); (2, "Switch On/Off only (send Basic Set)"); (3, "Switch All"); (4, "Send Scenes"); (5, "Send Preconfigured Scenes")]; mkJP 16 "Command to Control Group No7 (association group 8)" 1 1 0 255 [(0, "Disabled"); (1, "Switch On/Off and Dim (send Basic Set and Switch Multilevel)"); (2, "Switch On/Off only (send Basic Set)"); (3, "Switch All"); (4, "Send Scenes"); (5, "Send Preconfigured Scenes")]; mkJP 17 "Command to Control Scene No1 (association group 9)" 1 4 0 255 [(0, "Disabled"); (1, "Switch On/Off and Dim (send Basic Set and Switch Multilevel)"); (2, "Switch On/Off only (send Basic Set)"); (3, "Switch All"); (4, "Send Scenes"); (5, "Send Preconfigured Scenes")]; mkJP 18 "Command to Control Scene No2 (association group 10)" 1 4 0 255 [(0, "Disabled"); (1, "Switch On/Off and Dim (send Basic Set and Switch Multilevel)"); (2, "Switch On/Off only (send Basic Set)"); (3, "Switch All"); (4, "Send Scenes"); (5, "Send Preconfigured Scenes")]; mkJP 19 "Command to Control Scene No3 (association group 11)" 1 4 0 255 [(0, "Disabled"); (1, "Switch On/Off and Dim (send Basic Set and Switch Multilevel)"); (2, "Switch On/Off only (send Basic Set)"); (3, "Switch All"); (4, "Send Scenes"); (5, "Send Preconfigured Scenes")]; mkJP 20 "Command to Control group All On/Off (association group 12)" 1 3 0 255 [(0, "Disabled"); (1, "Switch On/Off and Dim (send Basic Set and Switch Multilevel)"); (2, "Switch On/Off only (send Basic Set)"); (3, "Switch All"); (4, "Send Scenes"); (5, "Send Preconfigured Scenes")]; mkJP 21 "Send the following Switch All commands" 1 255 0 255 [(1, "Switch off only"); (2, "Switch on only"); (255, "Switch all on and off")]].
Definition fpar550 : list jparam := [].
Definition fpar551 : list jparam := [mkJP 1 "Wind Speed Action Threshold" 1 6 0 30 []; mkJP 2 "Twilight Action Threshold" 1 37 0 100 []].
Definition fpar552 : list jparam := [mkJP 1 "Basic Level Set" 1 99 0 99 [(0, "OFF")]].
Definition file_parameters : list (list jparam) := [fpar0; fpar1; fpar2; fpar3; fpar4; fpar5; fpar6; fpar7; fpar8; fpar9; fpar10; fpar11; fpar12; fpar13; fpar14; fpar15; fpar16; fpar17; fpar18; fpar19; fpar20; fpar21; fpar22; fpar23; fpar24; fpar25; fpar26; fpar27; fpar28; fpar29; fpar30; fpar31; fpar32; fpar33; fpar34; fpar35; fpar36; fpar37; fpar38; fpar39; fpar40; fpar41; fpar42; fpar43; fpar44; fpar45; fpar46; fpar47; fpar48; fpar49; fpar50; fpar51; fpar52; fpar53; fpar54; fpar55; fpar56; fpar57; fpar58; fpar59; fpar60; fpar61; fpar62; fpar63; fpar64; fpar65; fpar66; fpar67; fpar68; fpar69; fpar70; fpar71; fpar72; fpar73; fpar74; fpar75; fpar76; fpar77; fpar78; fpar79; fpar80; fpar81; fpar82; fpar83; fpar84; fpar85; fpar86; fpar87; fpar88; fpar89; fpar90; fpar91; fpar92; fpar93; fpar94; fpar95; fpar96; fpar97; fpar98; fpar99; fpar100; fpar101; fpar102; fpar103; fpar104; fpar105; fpar106; fpar107; fpar108; fpar109; fpar110; fpar111; fpar112; fpar113; fpar114; fpar115; fpar116; fpar117; fpar118; fpar119; fpar120; fpar121; fpar122; fpar123; fpar124; fpar125; fpar126; fpar127; fpar128; fpar129; fpar130; fpar131; fpar132; fpar133; fpar134; fpar135; fpar136; fpar137; fpar138; fpar139; fpar140; fpar141; fpar142; fpar143; fpar144; fpar145; fpar146; fpar147; fpar148; fpar149; fpar150; fpar151; fpar152; fpar153; fpar154; fpar155; fpar156; fpar157; fpar158; fpar159; fpar160; fpar161; fpar162; fpar163; fpar164; fpar165; fpar166; fpar167; fpar168; fpar169; fpar170; fpar171; fpar172; fpar173; fpar174; fpar175; fpar176; fpar177; fpar178; fpar179; fpar180; fpar181; fpar182; fpar183; fpar184; fpar185; fpar186; fpar187; fpar188; fpar189; fpar190; fpar191; fpar192; fpar193; fpar194; fpar195; fpar196; fpar197; fpar198; fpar199; fpar200; fpar201; fpar202; fpar203; fpar204; fpar205; fpar206; fpar207; fpar208; fpar209; fpar210; fpar211; fpar212; fpar213; fpar214; fpar215; fpar216; fpar217; fpar218; fpar219; fpar220; fpar221; fpar222; fpar223; fpar224; fpar225; fpar226; fpar227; fpar228; fpar229; fpar230; fpar231; fpar232; fpar233; fpar234; fpar235; fpar236; fpar237; fpar238; fpar239; fpar240; fpar241; fpar242; fpar243; fpar244; fpar245; fpar246; fpar247; fpar248; fpar249; fpar250; fpar251; fpar252; fpar253; fpar254; fpar255; fpar256; fpar257; fpar258; fpar259; fpar260; fpar261; fpar262; fpar263; fpar264; fpar265; fpar266; fpar267; fpar268; fpar269; fpar270; fpar271; fpar272; fpar273; fpar274; fpar275; fpar276; fpar277; fpar278; fpar279; fpar280; fpar281; fpar282; fpar283; fpar284; fpar285; fpar286; fpar287; fpar288; fpar289; fpar290; fpar291; fpar292; fpar293; fpar294; fpar295; fpar296; fpar297; fpar298; fpar299; fpar300; fpar301; fpar302; fpar303; fpar304; fpar305; fpar306; fpar307; fpar308; fpar309; fpar310; fpar311; fpar312; fpar313; fpar314; fpar315; fpar316; fpar317; fpar318; fpar319; fpar320; fpar321; fpar322; fpar323; fpar324; fpar325; fpar326; fpar327; fpar328; fpar329; fpar330; fpar331; fpar332; fpar333; fpar334; fpar335; fpar336; fpar337; fpar338; fpar339; fpar340; fpar341; fpar342; fpar343; fpar344; fpar345; fpar346; fpar347; fpar348; fpar349; fpar350; fpar351; fpar352; fpar353; fpar354; fpar355; fpar356; fpar357; fpar358; fpar359; fpar360; fpar361; fpar362; fpar363; fpar364; fpar365; fpar366; fpar367; fpar368; fpar369; fpar370; fpar371; fpar372; fpar373; fpar374; fpar375; fpar376; fpar377; fpar378; fpar379; fpar380; fpar381; fpar382; fpar383; fpar384; fpar385; fpar386; fpar387; fpar388; fpar389; fpar390; fpar391; fpar392; fpar393; fpar394; fpar395; fpar396; fpar397; fpar398; fpar399; fpar400; fpar401; fpar402; fpar403; fpar404; fpar405; fpar406; fpar407; fpar408; fpar409; fpar410; fpar411; fpar412; fpar413; fpar414; fpar415; fpar416; fpar417; fpar418; fpar419; fpar420; fpar421; fpar422; fpar423; fpar424; fpar425; fpar426; fpar427; fpar428; fpar429; fpar430; fpar431; fpar432; fpar433; fpar434; fpar435; fpar436; fpar437; fpar438; fpar439; fpar440; fpar441; fpar442; fpar443; fpar444; fpar445; fpar446; fpar447; fpar448; fpar449; fpar450; fpar451; fpar452; fpar453; fpar454; fpar455; fpar456; fpar457; fpar458; fpar459; fpar460; fpar461; fpar462; fpar463; fpar464; fpar465; fpar466; fpar467; fpar468; fpar469; fpar470; fpar471; fpar472; fpar473; fpar474; fpar475; fpar476; fpar477; fpar478; fpar479; fpar480; fpar481; fpar482; fpar483; fpar484; fpar485; fpar486; fpar487; fpar488; fpar489; fpar490; fpar491; fpar492; fpar493; fpar494; fpar495; fpar496; fpar497; fpar498; fpar499; fpar500; fpar501; fpar502; fpar503; fpar504; fpar505; fpar506; fpar507; fpar508; fpar509; fpar510; fpar511; fpar512; fpar513; fpar514; fpar515; fpar516; fpar517; fpar518; fpar519; fpar520; fpar521; fpar522; fpar523; fpar524; fpar525; fpar526; fpar527; fpar528; fpar529; fpar530; fpar531; fpar532; fpar533; fpar534; fpar535; fpar536; fpar537; fpar538; fpar539; fpar540; fpar541; fpar542; fpar543; fpar544; fpar545; fpar546; fpar547; fpar548; fpar549; fpar550; fpar551; fpar552].
Definition dpar0 : list gparam := [P 1 "Device Configuration Value 1" 1 [V 0 143 ""]].
Definition dpar1 : list gparam := [].
Definition dpar2 : list gparam := [].
Definition dpar3 : list gparam := [P 5 "Ignore Start Level When Receiving Dim Commands" 1 [V 0 0 "Respect Start Level"; V 1 1 "Ignore Start Level (default)"]; P 7 "Dim Rate Step Count - ZWave Control" 1 [V 1 99 ""]; P 8 "Dim Rate Step Duration - ZWave Control" 1 [V 1 255 ""]; P 9 "Dim Rate Step Count - Manual Control" 1 [V 1 99 ""]; P 10 "Dim Rate Step Duration - manual Control" 1 [V 1 255 ""]; P 11 "Dim Rate Step Count - ZWave All on/off" 1 [V 1 99 ""]; P 12 "Dim Rate Step Duration - ZWave All on/off" 1 [V 1 255 ""]; P 29 "Load Sensing" 1 [V 0 0 "Disabled (default)"; V 1 1 "Enabled"]].
Definition dpar4 : list gparam := [P 1 "Ignore Start-Level (Transmitting)" 1 [V 0 0 "No"; V 1 1 "Yes"]; P 2 "Suspend group 4" 1 [V 0 0 "No"; V 1 1 "Yes"]; P 3 "Night Light" 1 [V 0 0 "No"; V 1 1 "Yes"]].
Definition dpar5 : list gparam := [P 1 "Set Ignore Start Level Bit When Transmitting Dim Commands" 1 [V 0 0 "Use transmisison start level"; V 1 1 "Ignore transmisison start level"]; P 2 "Suspend Group 4" 1 [V 0 0 "Enable transmission to Group 4"; V 1 1 "Disable transmission to Group 4"]; P 3 "Night Light" 1 [V 0 0 "LED on when switch is ON"; V 1 1 "LED on when switch is OFF"]; P 4 "Invert Switch" 1 [V 0 0 "No"; V 1 1 "Yes"]; P 5 "Ignore Start-Level (Receiving)" 1 [V 0 0 "No"; V 1 1 "Yes"]; P 6 "Don’t Send Level Command After Transmitting Dim Commands" 1 [V 0 0 "Send level command"; V 1 1 "Don’t send level command"]; P 7 "On/Off Command Dim Step" 1 [V 1 99 ""]; P 8 "On/Off Command Dim Rate" 1 [V 1 255 ""]; P 9 "Local Control Dim Step" 1 [V 1 99 ""]; P 10 "Local Control Dim Rate" 1 [V 1 255 ""]; P 11 "ALL ON/ALL OFF Dim Step" 1 [V 1 99 ""]; P 12 "ALL ON/ALL OFF Dim Rate" 1 [V 1 255 ""]; P 13 "Disable Group 4 During a Dim Command" 1 [V 0 0 "Enable transmission to Group 4"; V 1 1 "Disable transmission to Group 4"]; P 14 "Enable Shade Control Group 2" 1 [V 0 0 "Disabled"; V 1 1 "Enabled"]; P 15 "Enable Shade Control Group 3" 1 [V 0 0 "Disabled"; V 1 1 "Enabled"]; P 19 "LED Transmission Indication" 1 [V 0 0 "No flicker"; V 1 1 "Flicker during all transmission"; V 2 2 "Flicker first second of transmission"]].
Definition dpar6 : list gparam := [P 1 "Set Ignore Start Level Bit When Transmitting Dim Commands" 1 [V 0 0 "Use transmisison start level"; V 1 1 "Ignore transmisison start level"]; P 2 "Suspend Group 4" 1 [V 0 0 "Enable transmission to Group 4"; V 1 1 "Disable transmission to Group 4"]; P 3 "Night Light" 1 [V 0 0 "LED on when switch is OFF"; V 1 1 "LED on when switch is ON"]; P 4 "Invert Switch" 1 [V 0 0 "No"; V 1 1 "Yes"]; P 5 "Ignore Start-Level (Receiving)" 1 [V 0 0 "No"; V 1 1 "Yes"]; P 6 "Don’t Send Level Command After Transmitting Dim Commands" 1 [V 0 0 "Send level command"; V 1 1 "Don’t send level command"]; P 7 "On/Off Command Dim Step" 1 [V 1 99 ""]; P 8 "On/Off Command Dim Rate" 1 [V 1 255 ""]; P 9 "Local Control Dim Step" 1 [V 1 99 ""]; P 10 "Local Control Dim Rate" 1 [V 1 255 ""]; P 11 "ALL ON/ALL OFF Dim Step" 1 [V 1 99 ""]; P 12 "ALL ON/ALL OFF Dim Rate" 1 [V 1 255 ""]; P 13 "Disable Group 4 During a Dim Command" 1 [V 0 0 "Enable transmission to Group 4"; V 1 1 "Disable transmission to Group 4"]; P 19 "LED Transmission Indication" 1 [V 0 0 "No flicker"; V 1 1 "Flicker during all transmission"; V 2 2 "Flicker first second of transmission"]].
Definition dpar7 : list gparam := [P 17 "Mode" 1 [V 0 0 "Lightning"; V 1 1 "Alarm"; V 2 2 "Sensor"]; P 18 "Off/Idle delay" 1 [V 0 255 ""]; P 19 "Unsolicited Commands" 1 [V 0 0 "disabled"; V 1 1 "enabled"]; P 22 "Awake Time" 1 [V 15 45 ""]].
Definition dpar8 : list gparam := [P 1 "Ignore start level" 1 [V 0 0 "Ignore start level"; V 1 1 "Do not ignore start level"]; P 2 "Suspend Group 4" 1 [V 0 0 "Transmit to group 4 devices"; V 1 1 "Stop transmit to group 4 devices"]; P 3 "Night Light" 1 [V 0 0 "Led when load on"; V 1 1 "Led when load off"]; P 4 "Invert Switch" 1 [V 0 0 "Invert off"; V 1 1 "Invert on"]; P 14 "Enable Shade Control Group 2" 1 [V 0 1 ""]; P 15 "Enable Shade Control Group 3" 1 [V 0 1 ""]; P 19 "LED Transmission Indication" 1 [V 0 0 "No flicker"; V 1 1 "Flicker for 1 second"; V 2 2 "Flicker for 2 second"]; P 20 "Poll Group 2 Interval" 1 [V 0 255 ""]; P 22 "Poll Group 2" 1 [V 0 1 ""]].
Definition dpar9 : list gparam := [].
Definition dpar10 : list gparam := [P 1 "Set Ignore Start Level Bit" 1 [V 0 0 "Dimmer will not ignore the start level"; V 1 1 "Dimmer will ignore the start level"]; P 2 "Suspend Group 4" 1 [V 0 0 "Enable transmitting to devices “associated” into Group 4"; V 1 1 "Stop transmitting to devices “associated” into Group 4"]; P 3 "Night Light" 1 [V 0 0 "Turn LED ON when the load is turned ON"; V 1 1 "Turn LED ON when the load is turned OFF"]; P 4 "Invert Switch" 1 [V 0 0 "Top of switch is ON, bottom is OFF"; V 1 1 "Top of switch is OFF, bottom is ON"]; P 14 "Enable Shade Control Group 2" 1 [V 0 0 "Disable operation of shade control devices via group 2"; V 1 1 "Enable operation of shade control devices via group 2"]; P 15 "Enable Shade Control Group 3" 1 [V 0 0 "Disable operation of shade control devices via group 3"; V 1 1 "Enable operation of shade control devices via group 3"]; P 19 "LED Transmission Indication" 1 [V 0 0 "LED will not flicker"; V 1 1 "LED will flicker the entire time while transmitting"; V 2 2 "LED will flicker 1 second when it begins transmitting"]].
Definition dpar11 : list gparam := [P 1 "Ignore Start Level Bit" 1 [V 0 0 "Do not ignore start level"; V 1 1 "Ignore start level"]; P 2 "Suspend Group 4" 1 [V 0 1 ""]; P 3 "Night Light" 1 [V 0 1 ""]; P 4 "Invert Switch" 1 [V 0 1 ""]; P 5 "Ignore Start Level Bit" 1 [V 0 1 ""]; P 7 "On/Off Command dim step" 1 [V 1 99 ""]; P 8 "On/Off Command dim timer" 1 [V 1 255 ""]; P 9 "Local Control dim rate" 1 [V 1 99 ""]; P 10 "Dim timer Parameter" 1 [V 1 255 ""]; P 11 "ALL ON/ALL OFF dim step" 1 [V 1 99 ""]; P 12 "ALL ON/ALL OFF dim rate" 1 [V 1 255 ""]; P 13 "Disable group 4 during dim command" 1 [V 0 1 ""]; P 14 "Enable shade control group 2" 1 [V 0 1 ""]; P 15 "Enable shade control group 3" 1 [V 0 1 ""]; P 16 "Enable shade control group 1" 1 [V 0 1 ""]; P 19 "Transmission LED" 1 [V 0 2 ""]; P 20 "Poll group 1 interval" 1 [V 1 255 ""]; P 21 "Poll group 1" 1 [V 0 1 ""]; P 22 "Poll Group 2" 1 [V 0 1 ""]].
Definition dpar12 : list gparam := [P 1 "Which value of the Sensor Binary Report or Basic Set will be sent when the Magnet is triggered On/Off." 1 [V 0 0 "On=Sensor Binary Report/Basic Set 0xFF; Off=Sensor Binary Report/Basic"; V 1 1 "On=Sensor Binary Report/Basic Set 0x00; Off=Sensor Binary Report/Basic"]; P 2 "Enable wake up 10 minutes when re-power on the sensor" 1 [V 0 0 "Disable"; V 1 1 "Enable"]; P 3 "Basic Set Report" 1 [V 0 0 "Open: 0xFF, Close: 0x00"; V 1 1 "Open: 0x00, Close: 0xFF"]; P 39 "Set the low battery value." 1 [V 10 50 ""]; P 111 "Set the interval time of low battery checking." 4 [V 0 2147483647 ""]; P 121 "Report type" 4 [V 0 65535 ""]; P 255 "Reset To Factory Defaults." 4 [V 0 0 "Reset to factory default setting"; V 1 1 "Normal"; V 1431655765 1431655765 "Reset to factory default"]].
Definition dpar13 : list gparam := [P 1 "Which value of the Sensor Binary Report or Basic Set will be sent when the Magnet is triggered On/Off." 1 [V 0 0 "On=Sensor Binary Report/Basic Set 0xFF; Off=Sensor Binary Report/Basic"; V 1 1 "On=Sensor Binary Report/Basic Set 0x00; Off=Sensor Binary Report/Basic"]; P 2 "Enable wake up 10 minutes when re-power on the sensor" 1 [V 0 0 "Disable"; V 1 1 "Enable"]; P 3 "Basic Set Report" 1 [V 0 0 "Open: 0xFF, Close: 0x00"; V 1 1 "Open: 0x00, Close: 0xFF"]; P 39 "Set the low battery value." 1 [V 10 50 ""]; P 111 "Set the interval time of low battery checking." 4 [V 0 2147483647 ""]; P 121 "Report type" 4 [V 0 65535 ""]; P 255 "Reset To Factory Defaults." 4 [V 0 0 "Reset to factory default setting"; V 1 1 "Normal"; V 1431655765 1431655765 "Reset to factory default"]].
Definition dpar14 : list gparam := [P 241 "Mode of Button 1 (upper left)" 1 [V 0 0 "Factory Default"; V 1 1 "Scene Mode"; V 2 2 "Add Mode"; V 3 3 "Remove Mode"; V 4 4 "Association Mode"; V 5 5 "Learn Mode"]; P 242 "Mode of Button 2 (upper right)" 1 [V 0 0 "Factory Default"; V 1 1 "Scene Mode"; V 2 2 "Add Mode"; V 3 3 "Remove Mode"; V 4 4 "Association Mode"; V 5 5 "Learn Mode"]; P 243 "Mode of Button 3 (lower left)" 1 [V 0 0 "Factory Default"; V 1 1 "Scene Mode"; V 2 2 "Add Mode"; V 3 3 "Remove Mode"; V 4 4 "Association Mode"; V 5 5 "Learn Mode"]; P 244 "Mode of Button 4 (lower right)" 1 [V 0 0 "Factory Default"; V 1 1 "Scene Mode"; V 2 2 "Add Mode"; V 3 3 "Remove Mode"; V 4 4 "Association Mode"; V 5 5 "Learn Mode"]; P 245 "Mode of Button 5 (Include)" 1 [V 0 0 "Factory Default"; V 1 1 "Scene Mode"; V 2 2 "Add Mode"; V 3 3 "Remove Mode"; V 4 4 "Association Mode"; V 5 5 "Learn Mode"]; P 246 "Mode of Button 6 (Exclude)" 1 [V 0 0 "Factory Default"; V 1 1 "Scene Mode"; V 2 2 "Add Mode"; V 3 3 "Remove Mode"; V 4 4 "Association Mode"; V 5 5 "Learn Mode"]; P 247 "Mode of Button 7 (Association)" 1 [V 0 0 "Factory Default"; V 1 1 "Scene Mode"; V 2 2 "Add Mode"; V 3 3 "Remove Mode"; V 4 4 "Association Mode"; V 5 5 "Learn Mode"]; P 248 "Mode of Button 8 (Learn)" 1 [V 0 0 "Factory Default"; V 1 1 "Scene Mode"; V 2 2 "Add Mode"; V 3 3 "Remove Mode"; V 4 4 "Association Mode"; V 5 5 "Learn Mode"]; P 250 "Secondary Controller Mode" 1 [V 0 0 "Group Mode"; V 1 1 "Scene Mode"]].
Definition dpar15 : list gparam := [P 241 "Mode of Button 1 (upper left)" 1 [V 0 0 "Factory Default"; V 1 1 "Scene Mode"; V 2 2 "Add Mode"; V 3 3 "Remove Mode"; V 4 4 "Association Mode"; V 5 5 "Learn Mode"]; P 242 "Mode of Button 2 (upper right)" 1 [V 0 0 "Factory Default"; V 1 1 "Scene Mode"; V 2 2 "Add Mode"; V 3 3 "Remove Mode"; V 4 4 "Association Mode"; V 5 5 "Learn Mode"]; P 243 "Mode of Button 3 (lower left)" 1 [V 0 0 "Factory Default"; V 1 1 "Scene Mode"; V 2 2 "Add Mode"; V 3 3 "Remove Mode"; V 4 4 "Association Mode"; V 5 5 "Learn Mode"]; P 244 "Mode of Button 4 (lower right)" 1 [V 0 0 "Factory Default"; V 1 1 "Scene Mode"; V 2 2 "Add Mode"; V 3 3 "Remove Mode"; V 4 4 "Association Mode"; V 5 5 "Learn Mode"]; P 245 "Mode of Button 5 (Include)" 1 [V 0 0 "Factory Default"; V 1 1 "Scene Mode"; V 2 2 "Add Mode"; V 3 3 "Remove Mode"; V 4 4 "Association Mode"; V 5 5 "Learn Mode"]; P 246 "Mode of Button 6 (Exclude)" 1 [V 0 0 "Factory Default"; V 1 1 "Scene Mode"; V 2 2 "Add Mode"; V 3 3 "Remove Mode"; V 4 4 "Association Mode"; V 5 5 "Learn Mode"]; P 247 "Mode of Button 7 (Association)" 1 [V 0 0 "Factory Default"; V 1 1 "Scene Mode"; V 2 2 "Add Mode"; V 3 3 "Remove Mode"; V 4 4 "Association Mode"; V 5 5 "Learn Mode"]; P 248 "Mode of Button 8 (Learn)" 1 [V 0 0 "Factory Default"; V 1 1 "Scene Mode"; V 2 2 "Add Mode"; V 3 3 "Remove Mode"; V 4 4 "Association Mode"; V 5 5 "Learn Mode"]; P 250 "Secondary Controller Mode" 1 [V 0 0 "Group Mode"; V 1 1 "Scene Mode"]].
Definition dpar16 : list gparam := [P 250 "Mode of Button 1 " 1 [V 0 0 "Factory Default"; V 1 1 "Scene Mode"]].
Definition dpar17 : list gparam := [P 2 "Wake up for 10 minutes when batteries are inserted" 1 [V 0 0 "disable (default)"; V 1 1 "enable"]; P 3 "On time" 2 [V 1 15300 ""]; P 4 "Motion sensor" 1 [V 0 0 "Disabled"; V 1 1 "Enabled"]; P 5 "Command to send when movement" 1 [V 1 1 "Send Basic Set"; V 2 2 "send Sensor Binary report"]; P 101 "Which reports to send to group 1" 4 [V 0 225 ""]; P 102 "Which reports to send to group 2" 4 [V 0 225 ""]; P 103 "Which reports to send to group 3" 4 [V 0 225 ""]; P 111 "Interval to send out reports of group 1" 4 [V 1 2678400 ""]; P 112 "Interval to send out reports of group 2" 4 [V 1 2678400 ""]; P 113 "Interval to send out reports of group 3" 4 [V 1 2678400 ""]; P 255 "Reset to the default Configuration of all parameters" 1 [V 0 255 ""]].
Definition dpar18 : list gparam := [P 1 "Voltage" 2 [V 0 32000 ""]; P 3 "Selective Reporting" 1 [V 0 1 ""]; P 4 "Current Threshold - Whole HEM" 2 [V 0 60000 ""]; P 5 "Current Threshold - Clamp 1" 2 [V 0 60000 ""]; P 6 "Current Threshold - Clamp 2" 2 [V 0 60000 ""]; P 7 "Current Threshold - Clamp 3" 2 [V 0 60000 ""]; P 8 "Percent Change - Whole HEM" 1 [V 0 100 ""]; P 9 "Percent Change - Clamp 1" 1 [V 0 100 ""]; P 10 "Percent Change - Clamp 2" 1 [V 0 100 ""]; P 11 "Percent Change - Clamp 3" 1 [V 0 100 ""]; P 101 "Which reports need to send automatically for group 1" 4 [V 0 65535 ""]; P 102 "Which reports need to send automatically for group 2" 4 [V 0 65535 ""]; P 103 "Which reports need to send automatically for group 3" 4 [V 0 65535 ""]; P 111 "Interval to send out reports of group 1" 4 [V 1 2678400 ""]; P 112 "Interval to send out reports of group 2" 4 [V 1 2678400 ""]; P 113 "Interval to send out reports of group 3" 4 [V 1 2678400 ""]].
Definition dpar19 : list gparam := [P 2 "Reverse clamping" 1 [V 0 0 "Disabled"; V 1 1 "Enabled"]; P 3 "Selective Reporting" 1 [V 0 16 ""]; P 4 "Current Threshold - Whole HEM" 2 [V 0 60000 ""]; P 5 "Current Threshold - Clamp 1" 2 [V 0 60000 ""]; P 6 "Current Threshold - Clamp 2" 2 [V 0 60000 ""]; P 7 "Current Threshold - Clamp 3" 2 [V 0 60000 ""]; P 8 "Percent Change - Whole HEM" 1 [V 0 100 ""]; P 9 "Percent Change - Clamp 1" 1 [V 0 100 ""]; P 10 "Percent Change - Clamp 2" 1 [V 0 100 ""]; P 11 "Percent Change - Clamp 3" 1 [V 0 100 ""]; P 101 "Which reports need to send automatically for group 1" 4 [V 0 1061109568 ""]; P 102 "Which reports need to send automatically for group 2" 4 [V 0 1061109568 ""]; P 103 "Which reports need to send automatically for group 3" 4 [V 0 1061109568 ""]; P 111 "Interval to send out reports of group 1" 4 [V 1 2678400 ""]; P 112 "Interval to send out reports of group 2" 4 [V 1 2678400 ""]; P 113 "Interval to send out reports of group 3" 4 [V 1 2678400 ""]].
Definition dpar20 : list gparam := [P 1 "Send Sensor binary report on open/close events" 1 [V 0 0 "On for opened, Off for closed"; V 1 1 "Off for opened, On for closed"]; P 2 "Enable wake up 10 minutes when power on" 1 [V 0 0 "No"; V 1 1 "Yes"]; P 3 "Send Basic Set on open/close event" 1 [V 0 0 "On for opened, Off for closed"; V 1 1 "Off for opened, On for closed"]; P 121 "command class to use for open/close" 4 [V 0 0 "not set"; V 1 1 "BATTERY report"; V 16 16 "SENSOR BINARY report"; V 17 17 "SENSOR BINARY and BATTERY report"]; P 121 "command class to use for open/close" 4 [V 0 0 "not set"; V 1 1 "BASIC report"]].
Definition dpar21 : list gparam := [P 1 "Send Sensor binary report on open/close events" 1 [V 0 0 "On for opened, Off for closed"; V 1 1 "Off for opened, On for closed"]; P 2 "Enable wake up 10 minutes when power on" 1 [V 0 0 "No"; V 1 1 "Yes"]; P 3 "Send Basic Set on open/close event" 1 [V 0 0 "On for opened, Off for closed"; V 1 1 "Off for opened, On for closed"]; P 121 "command class to use for open/close" 4 [V 0 0 "not set"; V 1 1 "BATTERY report"; V 16 16 "SENSOR BINARY report"; V 17 17 "SENSOR BINARY and BATTERY report"]; P 121 "command class to use for open/close" 4 [V 0 0 "not set"; V 1 1 "BASIC report"]].
Definition dpar22 : list gparam := [P 1 "Sensor Binary Report" 1 [V 0 0 "Open: 00, Close: FF"; V 1 1 "Open: FF, Close: 00"]; P 2 "Wake up" 1 [V 0 0 "Disable"; V 1 1 "Enable"]; P 3 "Basic set value" 1 [V 0 0 "Open: 00, Close: FF"; V 1 1 "Open: FF, Close: 00"]; P 121 "Reports that will be sent" 4 [V 0 0 "Do not send anything"; V 1 1 "Send battery report"; V 16 16 "Send Sensor Binary report"; V 17 17 "Send Sensor Binary and Battery reports"]; P 121 "Parameter 121 Value 3" 4 [V 0 0 "Do not send anything"; V 1 1 "Send Basic Set"; V 16 16 "Send ALARM"; V 17 17 "Send Basic Set and ALARM"]].
Definition dpar23 : list gparam := [P 1 "Send Sensor binary report on open/close events" 1 [V 0 0 "On for opened, Off for closed"; V 1 1 "Off for opened, On for closed"]; P 3 "Send Basic Set on open/close event" 1 [V 0 0 "On for opened, Off for closed"; V 1 1 "Off for opened, On for closed"]; P 101 "Low battery voltage check" 1 [V 0 0 "Disable"; V 1 1 "Enable"]; P 111 "Low battery voltage check time" 4 [V 0 65535 ""]; P 121 "Flag values for triggered magnet switch" 4 [V 0 65535 ""]; P 252 "Permit other configurations" 1 [V 0 0 "Unlock"; V 1 1 "Lock"]; P 255 "Reset to default" 2 [V 0 0 "Reset"]].
Definition dpar24 : list gparam := [P 1 "Multilevel Sensor Report Content" 1 [V 0 0 "Power"; V 1 1 "Voltage"]; P 80 "Automatic Notifications" 1 [V 0 0 "Nothing"; V 1 1 "Hail"; V 2 2 "Basic CC Report"]; P 90 "Enable/disable Parameter 91 and 92" 1 [V 0 0 "Disable"; V 1 1 "Enable"]; P 91 "Minimum change in wattage" 2 [V 0 65535 ""]; P 92 "Minimum change in wattage %" 1 [V 0 100 ""]; P 100 "Set 100 to 103 to default" 1 [V 0 0 "Reset"]; P 101 "Group 1 report" 4 [V 0 0 "None"; V 2 2 "Multisensor Report"; V 4 4 "Meter Report (Watts)"; V 8 8 "Meter Report (kWh)"; V 12 12 "Meter Report Watts and kWh"]; P 102 "Group 2 report" 4 [V 0 0 "None"; V 2 2 "Multisensor Report"; V 4 4 "Meter Report (Watts)"; V 8 8 "Meter Report (kWh)"; V 12 12 "Meter Report Watts and kWh"]; P 103 "Group 3 report" 4 [V 0 0 "None"; V 2 2 "Multisensor Report"; V 4 4 "Meter Report (Watts)"; V 8 8 "Meter Report (kWh)"; V 12 12 "Meter Report Watts and kWh"]; P 110 "Set 111 to 113 to default" 1 [V 0 0 "Reset"]; P 111 "Interval Group 1" 4 [V 0 65535 ""]; P 112 "Interval Group 2" 4 [V 0 65535 ""]; P 113 "Interval Group 3" 4 [V 0 65535 ""]; P 254 "Device Tag" 2 [V 0 65535 ""]; P 255 "Device Reset" 1 [V 0 0 "Reset"]].
Definition dpar25 : list gparam := [P 1 "Multilevel Sensor Report Content" 1 [V 0 0 "Power"; V 1 1 "Voltage"]; P 2 "Make SES blink" 2 [V 0 65535 ""]; P 80 "Automatic Notifications" 1 [V 0 0 "Nothing"; V 1 1 "Hail"; V 2 2 "Basic CC Report"]; P 90 "Enable Parameter 91" 1 [V 0 0 "Disable"; V 1 1 "Enable"]; P 91 "Minimum change in wattage" 2 [V 0 65535 ""]; P 92 "Minimum change in wattage %" 1 [V 0 255 ""]; P 100 "Set 100 to 103 to default" 1 [V 0 0 "Reset"]; P 101 "Group 1 report" 4 [V 2 2 "Multisensor Report"; V 4 4 "Meter Report (Watts)"; V 8 8 "Meter Report (kWh)"]; P 102 "Group 2 report" 4 [V 2 2 "Multisensor Report"; V 4 4 "Meter Report (Watts)"; V 8 8 "Meter Report (kWh)"]; P 103 "Group 3 report" 4 [V 2 2 "Multisensor Report"; V 4 4 "Meter Report (Watts)"; V 8 8 "Meter Report (kWh)"]; P 110 "Set 111 to 113 to default" 1 [V 0 0 "Reset"]; P 111 "Interval group 1" 4 [V 0 65535 ""]; P 112 "Interval group 1" 4 [V 0 65535 ""]; P 113 "Interval group 1" 4 [V 0 65535 ""]; P 254 "Device Tag" 2 [V 0 65535 ""]; P 255 "Device Reset" 1 [V 0 0 "Reset"]].
Definition dpar26 : list gparam := [P 3 "Current Overload Protection" 1 [V 0 0 "Activate Overload Protection"; V 1 1 "Deactivate Overload Protection"]; P 20 "Output Load Status" 1 [V 0 0 "Last Status"; V 1 1 "Always ON"; V 2 2 "Always OFF"]; P 80 "Notification on Status Change" 1 [V 0 0 "Nothing"; V 1 1 "Hail"; V 2 2 "Basic CC Report"]; P 90 "Enables/disables parameter 91/92" 1 [V 0 0 "Enable parameters 91 and 92"; V 1 1 "Disable parameters 91 and 92"]; P 91 "Minimum Change to send Report (Watt)" 2 [V 0 32000 ""]; P 92 "Minimum Change to send Report (%)" 1 [V 0 100 ""]; P 200 "Partner ID" 1 [V 0 0 "Aeon Labs"; V 1 1 "Other"]; P 252 "Lock/unlock Configuration Changes" 1 [V 0 0 "Unlocked"; V 1 1 "Locked"]].
Definition dpar27 : list gparam := [P 1 "Voltage to calculate power" 2 [V 0 32000 ""]; P 4 "Selective Reporting" 1 [V 0 16 ""]; P 5 "Wattage Threshold - Whole strip" 2 [V 0 60000 ""]; P 6 "Wattage Threshold - Socket 1" 2 [V 0 60000 ""]; P 7 "Wattage Threshold - Socket 2" 2 [V 0 60000 ""]; P 8 "Wattage Threshold - Socket 3" 2 [V 0 60000 ""]; P 9 "Wattage Threshold - Socket 4" 2 [V 0 60000 ""]; P 10 "Wattage Threshold - Socket 5" 2 [V 0 60000 ""]; P 11 "Wattage Threshold - Socket 6" 2 [V 0 60000 ""]; P 12 "Percent Change - Whole Strip" 1 [V 0 100 ""]; P 13 "Percent Change - Socket 1" 1 [V 0 100 ""]; P 14 "Percent Change - Socket 2" 1 [V 0 100 ""]; P 15 "Percent Change - Socket 3" 1 [V 0 100 ""]; P 16 "Percent Change - Socket 4" 1 [V 0 100 ""]; P 17 "Percent Change - Socket 5" 1 [V 0 100 ""]; P 18 "Percent Change - Socket 6" 1 [V 0 100 ""]; P 80 "Status of load changed report" 4 [V 0 0 "Not sent"; V 1 1 "Send Hail"; V 2 2 "Send Basic"]; P 90 "Get Temperature" 2 [V 0 65535 ""]; P 100 "Reset 0x65~0x67 to default value" 1 [V 0 0 "Reset"]; P 101 "select channels to report consumtion as item 1" 4 [V 0 255 ""]; P 101 "Select channels to report power as item 1" 4 [V 0 255 ""]; P 102 "Item 2 (kWh)" 4 [V 255 0 ""]; P 102 "Item 2 (power)" 4 [V 0 255 ""]; P 111 "Interval to send out reports of Group 1" 4 [V 1 2678400 ""]; P 112 "Interval to send out reports of Group 2" 4 [V 1 2678400 ""]; P 113 "Interval to send out reports of Group 3" 4 [V 1 2678400 ""]].
Definition dpar28 : list gparam := [P 2 "Make Micro Smart Switch Blink" 2 [V 0 65535 ""]; P 3 "Current Overload Protection" 1 [V 0 0 "Deactivate"; V 1 1 "Activate"]; P 80 "Notification on Status Change" 1 [V 0 0 "Deactivate"; V 1 1 "Hail CC Sent"; V 2 2 "Basic CC Report Sent"]; P 90 "Automated sending of a Report triggered by minimal change of value." 1 [V 0 0 "Deavtivate"; V 1 1 "Activate"]; P 91 "Minimum Change to send Report (Watt)" 2 [V 0 65535 ""]; P 92 "Minimum Change to send Report (%)" 1 [V 0 255 ""]; P 101 "Which reports need to send automatically in timing intervals for group 1" 4 [V 0 65535 ""]; P 102 "Which reports need to send automatically in timing intervals for group 2" 4 [V 0 65535 ""]; P 103 "Which reports need to send automatically in timing intervals for group 3" 4 [V 0 65535 ""]; P 111 "Interval to send out reports of group 1" 4 [V 1 2678400 ""]; P 112 "Interval to send out reports of group 2" 4 [V 1 2678400 ""]; P 113 "Interval to send out reports of group 3" 4 [V 1 2678400 ""]; P 120 "Turn External Button Mode" 1 [V 0 0 "Momentary Button Mode"; V 1 1 "2 State Switch Mode"; V 2 2 "3 Way Switch Mode"]].
Definition dpar29 : list gparam := [P 1 "Type of Sensor Report" 1 [V 0 0 "Power"; V 1 1 "Voltage"]; P 2 "Blinking Behavior" 2 [V 0 65535 ""]; P 80 "Notification on Status Change" 1 [V 0 0 "Nothing"; V 1 1 "Hail"; V 2 2 "Basic CC Report"]; P 90 "Disable Minimum Change report" 1 [V 0 0 "Disabled"; V 1 1 "Enabled"]; P 91 "Minimum Change to send Report (Watt)" 2 [V 0 32000 ""]; P 92 "Minimum Change to send Report (%)" 1 [V 0 100 ""]; P 101 "Reports to send to Group 1 " 4 [V 0 65535 ""]; P 102 "Reports to send to Group 2" 4 [V 0 65535 ""]; P 103 "Reports to send to Group 3" 4 [V 0 65535 ""]; P 111 "Interval to send out reports of group 1" 4 [V 0 65535 ""]; P 112 "Interval to send out reports of group 2" 4 [V 0 65535 ""]; P 113 "Interval to send out reports of group 3" 4 [V 0 65535 ""]].
Definition dpar30 : list gparam := [P 1 "Type of Sensor Report" 1 [V 0 0 "Power"; V 1 1 "Voltage"]; P 2 "Blinking Behavior" 2 [V 0 65535 ""]; P 80 "Notification on Status Change" 1 [V 0 0 "Nothing"; V 1 1 "Hail"; V 2 2 "Basic CC Report"]; P 90 "Disable automated reporting" 1 [V 0 0 "Disabled"; V 1 1 "Enabled"]; P 91 "Minimum Change to send Report (Watt)" 2 [V 0 32000 ""]; P 92 "Minimum Change to send Report (%)" 1 [V 0 100 ""]; P 101 "reports to send automatically" 4 [V 0 65535 ""]; P 102 "Which reports to send automatically to group 2" 4 [V 0 65535 ""]; P 103 "Which reports to send automatically to group 3" 4 [V 0 65535 ""]; P 111 "Interval to send out reports of group 1" 4 [V 0 65535 ""]; P 112 "Interval to send out reports of group 2" 4 [V 0 65535 ""]; P 113 "Interval to send out reports of group 3" 4 [V 0 65535 ""]].
Definition dpar31 : list gparam := [P 2 "Blink" 2 [V 0 65535 ""]; P 3 "Current Overload Protection" 1 [V 0 0 "Disabled"; V 1 1 "Enabled"]; P 80 "Notification on Status Change" 1 [V 0 0 "nothing"; V 1 1 "Hail CC Sent"; V 2 2 "Basic CC Report Sent"]; P 90 "Enables/disables parameter 91 and 92 " 1 [V 0 0 "Deavtivate"; V 1 1 "Activate"]; P 91 "Minimum Change to send Report (Watt)" 2 [V 0 65535 ""]; P 92 "Minimum Change to send Report (%)" 1 [V 0 100 ""]; P 100 "Set 101-103 to default." 1 [V 0 0 "Disabled"; V 1 1 "Enabled"]; P 101 "Automatic reports for group 1" 4 [V 0 0 "Disabled"; V 1 1 "Voltage"; V 2 2 "Current"; V 4 4 "Wattage"; V 8 8 "kWh"; V 15 15 "All Values"]; P 102 "Automatic reports for group 2" 4 [V 0 0 "Disabled"; V 1 1 "Voltage"; V 2 2 "Current"; V 4 4 "Wattage"; V 8 8 "kWh"; V 15 15 "All Values"]; P 103 "Automatic reports for group 3" 4 [V 0 0 "Disabled"; V 1 1 "Voltage"; V 2 2 "Current"; V 4 4 "Wattage"; V 8 8 "kWh"; V 15 15 "All Values"]; P 110 "Set 111-113 to default." 1 [V 0 0 "Disabled"; V 1 1 "Enabled"]; P 111 "Interval to send out reports of group 1" 4 [V 1 2678400 ""]; P 112 "Interval to send out reports of group 2" 4 [V 1 2678400 ""]; P 113 "Interval to send out reports of group 3" 4 [V 1 2678400 ""]; P 120 "Set External Switch/Button Control mode" 1 [V 0 0 "Momentary button mode"; V 1 1 "2-state switch mode"; V 255 255 "Unidentified mode"]; P 255 "Reset to the default Configuration." 1 [V 0 0 "Disabled"; V 1 1 "Enabled"]].
Definition dpar32 : list gparam := [P 2 "Make Micro Smart Switch Blink" 2 [V 0 65535 ""]; P 3 "Current Overload Protection" 1 [V 0 0 "Deactivate"; V 1 1 "Activate"]; P 80 "Notification on Status Change" 1 [V 0 0 "Deactivate"; V 1 1 "Hail CC Sent"; V 2 2 "Basic CC Report Sent"]; P 90 "Automated sending of a Report triggered by minimal change of value." 1 [V 0 0 "Deavtivate"; V 1 1 "Activate"]; P 91 "Minimum Change to send Report (Watt)" 2 [V 0 65535 ""]; P 92 "Minimum Change to send Report (%)" 1 [V 0 255 ""]; P 101 "Which reports need to send automatically in timing intervals for group 1" 4 [V 0 65535 ""]; P 102 "Which reports need to send automatically in timing intervals for group 2" 4 [V 0 65535 ""]; P 103 "Which reports need to send automatically in timing intervals for group 3" 4 [V 0 65535 ""]; P 111 "Interval to send out reports of group 1" 4 [V 1 2678400 ""]; P 112 "Interval to send out reports of group 2" 4 [V 1 2678400 ""]; P 113 "Interval to send out reports of group 3" 4 [V 1 2678400 ""]; P 120 "Turn External Button Mode" 1 [V 0 0 "Momentary Button Mode"; V 1 1 "2 State Switch Mode"; V 2 2 "3 Way Switch Mode"]].
Definition dpar33 : list gparam := [P 2 "Make Micro Smart Dimmer 2nd Edition Blink" 2 [V 0 65535 ""]; P 3 "Current Overload Protection" 1 [V 0 0 "Deactivate"; V 1 1 "Activate"]; P 13 "Enable/Disable CRC16 encapsulation" 1 [V 0 255 ""]; P 80 "Notification on Status Change" 1 [V 0 0 "Deactivate"; V 1 1 "Hail CC Sent"; V 2 2 "Basic CC Report Sent"]; P 90 "Sending of a Report triggered by minimal change of value." 1 [V 0 0 "Deavtivate"; V 1 1 "Activate"]; P 91 "Minimum Change to send Report (Watt)" 2 [V 0 65535 ""]; P 92 "Minimum Change to send Report (%)" 1 [V 0 255 ""]; P 101 "Reports for Group 1" 4 [V 0 65535 ""]; P 102 "Reports for Group 2" 4 [V 0 65535 ""]; P 103 "Reports for Group 3" 4 [V 0 65535 ""]; P 111 "Interval to send out reports of group 1" 4 [V 1 2678400 ""]; P 112 "Interval to send out reports of group 2" 4 [V 1 2678400 ""]; P 113 "Interval to send out reports of group 3" 4 [V 1 2678400 ""]; P 120 "Turn External Button Mode" 1 [V 0 0 "Momentary Button Mode"; V 1 1 "2 State Switch Mode"; V 2 2 "3 Way Switch Mode"]].
Definition dpar34 : list gparam := [P 1 "Multilevel Sensor Report Content" 1 [V 0 255 ""]; P 2 "Make SES blink" 2 [V 0 65535 ""]; P 80 "Automatic Notifications" 1 [V 0 0 "Nothing"; V 1 1 "Hail"; V 2 2 "Basic CC Report"]; P 90 "Enable Parameter 91" 1 [V 0 0 "Disable"; V 1 1 "Enable"]; P 91 "Minimum change in wattage" 2 [V 0 65535 ""]; P 92 "Minimum change in wattage %" 1 [V 0 255 ""]; P 100 "Set 100 to 103 to default" 1 [V 0 0 "Reset"]; P 101 "Group 1 report" 4 [V 2 2 "Multisensor Report"; V 4 4 "Meter Report (Watts)"; V 8 8 "Meter Report (kWh)"]; P 102 "Group 2 report" 4 [V 2 2 "Multisensor Report"; V 4 4 "Meter Report (Watts)"; V 8 8 "Meter Report (kWh)"]; P 103 "Group 3 report" 4 [V 2 2 "Multisensor Report"; V 4 4 "Meter Report (Watts)"; V 8 8 "Meter Report (kWh)"]; P 110 "Set 111 to 113 to default" 1 [V 0 0 "Reset"]; P 111 "Interval group 1" 4 [V 0 65535 ""]; P 112 "Interval group 1" 4 [V 0 65535 ""]; P 113 "Interval group 1" 4 [V 0 65535 ""]; P 254 "Device Tag" 2 [V 0 65535 ""]; P 255 "Device Reset" 1 [V 0 0 "Reset"]].
Definition dpar35 : list gparam := [P 1 "Multilevel Sensor Report Content" 1 [V 0 255 ""]; P 2 "Make SES blink" 2 [V 0 65535 ""]; P 80 "Automatic Notifications" 1 [V 0 0 "Nothing"; V 1 1 "Hail"; V 2 2 "Basic CC Report"]; P 90 "Enable Parameter 91" 1 [V 0 0 "Disable"; V 1 1 "Enable"]; P 91 "Minimum change in wattage" 2 [V 0 65535 ""]; P 92 "Minimum change in wattage %" 1 [V 0 255 ""]; P 100 "Set 100 to 103 to default" 1 [V 0 0 "Reset"]; P 101 "Group 1 report" 4 [V 2 2 "Multisensor Report"; V 4 4 "Meter Report (Watts)"; V 8 8 "Meter Report (kWh)"]; P 102 "Group 2 report" 4 [V 2 2 "Multisensor Report"; V 4 4 "Meter Report (Watts)"; V 8 8 "Meter Report (kWh)"]; P 103 "Group 3 report" 4 [V 2 2 "Multisensor Report"; V 4 4 "Meter Report (Watts)"; V 8 8 "Meter Report (kWh)"]; P 110 "Set 111 to 113 to default" 1 [V 0 0 "Reset"]; P 111 "Interval group 1" 4 [V 0 65535 ""]; P 112 "Interval group 1" 4 [V 0 65535 ""]; P 113 "Interval group 1" 4 [V 0 65535 ""]; P 254 "Device Tag" 2 [V 0 65535 ""]; P 255 "Device Reset" 1 [V 0 0 "Reset"]].
Definition dpar36 : list gparam := [].
Definition dpar37 : list gparam := [P 2 "Make Micro Switch 2nd Edition Blink" 2 [V 0 65535 ""]; P 80 "Notification on Status Change" 1 [V 0 0 "Deactivate"; V 1 1 "Hail CC Sent"; V 2 2 "Basic CC Report Sent"]; P 101 "Which reports need to send automatically in timing intervals for group 1" 4 [V 0 65535 ""]; P 102 "Which reports need to send automatically in timing intervals for group 2" 4 [V 0 65535 ""]; P 103 "Which reports need to send automatically in timing intervals for group 3" 4 [V 0 65535 ""]; P 111 "Interval to send out reports of group 1" 4 [V 1 2678400 ""]; P 112 "Interval to send out reports of group 2" 4 [V 1 2678400 ""]; P 113 "Interval to send out reports of group 3" 4 [V 1 2678400 ""]; P 120 "Turn External Button Mode" 1 [V 0 0 "Momentary Button Mode"; V 1 1 "2 State Switch Mode"; V 2 2 "3 Way Switch Mode"]; P 200 "Partner ID" 1 [V 0 0 "Aeon Labs Standard Product"; V 1 1 "AT&T"]; P 252 "Enable/disable Lock Configuration" 1 [V 0 0 "Disable"; V 1 1 "Enable"]; P 254 "Device Tag" 2 [V 0 65535 ""]; P 255 "Reset configuration set up to default setting" 1 [V 0 255 ""]].
Definition dpar38 : list gparam := [P 80 "Notification on Status Change" 1 [V 0 0 "Deactivate"; V 1 1 "Hail CC Sent"; V 2 2 "Basic CC Report Sent"]; P 120 "Turn External Button Mode" 1 [V 0 0 "Momentary Button Mode"; V 1 1 "2 State Switch Mode"; V 2 2 "3 Way Switch Mode"]].
Definition dpar39 : list gparam := [].
Definition dpar40 : list gparam := [P 37 "Sirensound and Volume" 2 [V 0 65535 ""]; P 37 "Siren Sound" 2 [V 1 1 "Siren Sound 1"; V 2 2 "Siren Sound 2"; V 3 3 "Siren Sound 3"; V 4 4 "Siren Sound 4"; V 5 5 "Siren Sound 5"]; P 37 "Siren Volume" 2 [V 1 1 "88dB"; V 2 2 "100dB"; V 3 3 "105dB"]; P 80 "Send Notifications" 1 [V 0 0 "Nothing"; V 1 1 "Hail CC"; V 2 2 "Basic CC Report"]; P 252 "Enable/Disable 'Lock' - Configuration" 1 [V 0 0 "Disable"; V 1 1 "Enable"]].
Definition dpar41 : list gparam := [].
Definition dpar42 : list gparam := [].
Definition dpar43 : list gparam := [P 2 "Repetitions of ringtone" 1 [V 0 100 ""]; P 5 "Default ringtone" 1 [V 1 100 ""]; P 6 "Ringtone to play" 1 [V 0 0 "Stop"; V 255 255 "play the default ringtone"]; P 7 "Control items" 1 [V 0 0 "Ignore"; V 1 1 "Play"; V 2 2 "Stop"; V 3 3 "Pause"; V 4 4 "Next"; V 5 5 "Previous"]; P 8 "Ringtone volume" 1 [V 0 10 ""]; P 10 "Define button- and button+ action" 1 [V 0 0 "“Button ‐” is previous, “Button+” is next"; V 1 1 "“Button ‐” is next, “Button+” is previous"]; P 11 "Define long press button- and button+" 1 [V 0 0 "short press changes vol, long press changes default ringtone"; V 1 1 "long press changes vol, short press changes default ringtone"]; P 42 "Get wireless button battery status" 1 [V 0 0 "Battery Level Good"; V 255 255 "Low Battery"]; P 80 "Enable Notifications" 1 [V 0 0 "nothing"; V 1 1 "hail CC"; V 2 2 "basic CC report"]; P 81 "Enable/disable battery group notification" 1 [V 0 0 "nothing"; V 1 1 "Configuration report parameter 42"]; P 241 "Pair doorbell with button" 4 [V 0 0 ""]; P 252 "Lock configuration" 1 [V 0 1 ""]; P 255 "Reset" 4 [V 0 0 ""]].
Definition dpar44 : list gparam := [P 2 "Repetitions of ringtone" 1 [V 0 100 ""]; P 5 "Default ringtone" 1 [V 1 100 ""]; P 6 "Ringtone to play" 1 [V 0 0 "Stop"; V 255 255 "play the default ringtone"]; P 7 "Control items" 1 [V 0 0 "Ignore"; V 1 1 "Play"; V 2 2 "Stop"; V 3 3 "Pause"; V 4 4 "Next"; V 5 5 "Previous"]; P 8 "Ringtone volume" 1 [V 0 10 ""]; P 10 "Define button- and button+ action" 1 [V 0 0 "“Button ‐” is previous, “Button+” is next"; V 1 1 "“Button ‐” is next, “Button+” is previous"]; P 11 "Define long press button- and button+" 1 [V 0 0 "short press changes vol, long press changes default ringtone"; V 1 1 "long press changes vol, short press changes default ringtone"]; P 42 "Get wireless button battery status" 1 [V 0 0 "Battery Level Good"; V 255 255 "Low Battery"]; P 80 "Enable Notifications" 1 [V 0 0 "nothing"; V 1 1 "hail CC"; V 2 2 "basic CC report"]; P 81 "Enable/disable battery group notification" 1 [V 0 0 "nothing"; V 1 1 "Configuration report parameter 42"]; P 241 "Pair doorbell with button" 4 [V 0 0 ""]; P 252 "Lock configuration" 1 [V 0 1 ""]; P 255 "Reset" 4 [V 0 0 ""]].
Definition dpar45 : list gparam := [P 2 "Repetitions of ringtone" 1 [V 0 100 ""]; P 5 "Default ringtone" 1 [V 1 100 ""]; P 6 "Ringtone to play" 1 [V 0 0 "Stop"; V 255 255 "play the default ringtone"]; P 7 "Control items" 1 [V 0 0 "Ignore"; V 1 1 "Play"; V 2 2 "Stop"; V 3 3 "Pause"; V 4 4 "Next"; V 5 5 "Previous"]; P 8 "Ringtone volume" 1 [V 0 10 ""]; P 10 "Define button- and button+ action" 1 [V 0 0 "“Button ‐” is previous, “Button+” is next"; V 1 1 "“Button ‐” is next, “Button+” is previous"]; P 11 "Define long press button- and button+" 1 [V 0 0 "short press changes vol, long press changes default ringtone"; V 1 1 "long press changes vol, short press changes default ringtone"]; P 42 "Get wireless button battery status" 1 [V 0 0 "Battery Level Good"; V 255 255 "Low Battery"]; P 80 "Enable Notifications" 1 [V 0 0 "nothing"; V 1 1 "hail CC"; V 2 2 "basic CC report"]; P 81 "Enable/disable battery group notification" 1 [V 0 0 "nothing"; V 1 1 "Configuration report parameter 42"]; P 241 "Pair doorbell with button" 4 [V 0 0 ""]; P 252 "Lock configuration" 1 [V 0 1 ""]; P 255 "Reset" 4 [V 0 0 ""]].
Definition dpar46 : list gparam := [P 2 "Repetitions of ringtone" 1 [V 0 100 ""]; P 5 "Default ringtone" 1 [V 1 100 ""]; P 6 "Ringtone to play" 1 [V 0 0 "Stop"; V 255 255 "play the default ringtone"]; P 7 "Control items" 1 [V 0 0 "Ignore"; V 1 1 "Play"; V 2 2 "Stop"; V 3 3 "Pause"; V 4 4 "Next"; V 5 5 "Previous"]; P 8 "Ringtone volume" 1 [V 0 10 ""]; P 10 "Define button- and button+ action" 1 [V 0 0 "“Button ‐” is previous, “Button+” is next"; V 1 1 "“Button ‐” is next, “Button+” is previous"]; P 11 "Define long press button- and button+" 1 [V 0 0 "short press changes vol, long press changes default ringtone"; V 1 1 "long press changes vol, short press changes default ringtone"]; P 42 "Get wireless button battery status" 1 [V 0 0 "Battery Level Good"; V 255 255 "Low Battery"]; P 80 "Enable Notifications" 1 [V 0 0 "nothing"; V 1 1 "hail CC"; V 2 2 "basic CC report"]; P 81 "Enable/disable battery group notification" 1 [V 0 0 "nothing"; V 1 1 "Configuration report parameter 42"]; P 241 "Pair doorbell with button" 4 [V 0 0 ""]; P 252 "Lock configuration" 1 [V 0 1 ""]; P 255 "Reset" 4 [V 0 0 ""]].
Definition dpar47 : list gparam := [P 2 "Repetitions of ringtone" 1 [V 0 100 ""]; P 5 "Default ringtone" 1 [V 1 100 ""]; P 6 "Ringtone to play" 1 [V 0 0 "Stop"; V 255 255 "play the default ringtone"]; P 7 "Control items" 1 [V 0 0 "Ignore"; V 1 1 "Play"; V 2 2 "Stop"; V 3 3 "Pause"; V 4 4 "Next"; V 5 5 "Previous"]; P 8 "Ringtone volume" 1 [V 0 10 ""]; P 10 "Define button- and button+ action" 1 [V 0 0 "“Button ‐” is previous, “Button+” is next"; V 1 1 "“Button ‐” is next, “Button+” is previous"]; P 11 "Define long press button- and button+" 1 [V 0 0 "short press changes vol, long press changes default ringtone"; V 1 1 "long press changes vol, short press changes default ringtone"]; P 42 "Get wireless button battery status" 1 [V 0 0 "Battery Level Good"; V 255 255 "Low Battery"]; P 80 "Enable Notifications" 1 [V 0 0 "nothing"; V 1 1 "hail CC"; V 2 2 "basic CC report"]; P 81 "Enable/disable battery group notification" 1 [V 0 0 "nothing"; V 1 1 "Configuration report parameter 42"]; P 241 "Pair doorbell with button" 4 [V 0 0 ""]; P 252 "Lock configuration" 1 [V 0 1 ""]; P 255 "Reset" 4 [V 0 0 ""]].
Definition dpar48 : list gparam := [P 2 "Repetitions of ringtone" 1 [V 0 100 ""]; P 5 "Default ringtone" 1 [V 1 100 ""]; P 6 "Ringtone to play" 1 [V 0 0 "Stop"; V 255 255 "play the default ringtone"]; P 7 "Control items" 1 [V 0 0 "Ignore"; V 1 1 "Play"; V 2 2 "Stop"; V 3 3 "Pause"; V 4 4 "Next"; V 5 5 "Previous"]; P 8 "Ringtone volume" 1 [V 0 10 ""]; P 10 "Define button- and button+ action" 1 [V 0 0 "“Button ‐” is previous, “Button+” is next"; V 1 1 "“Button ‐” is next, “Button+” is previous"]; P 11 "Define long press button- and button+" 1 [V 0 0 "short press changes vol, long press changes default ringtone"; V 1 1 "long press changes vol, short press changes default ringtone"]; P 42 "Get wireless button battery status" 1 [V 0 0 "Battery Level Good"; V 255 255 "Low Battery"]; P 80 "Enable Notifications" 1 [V 0 0 "nothing"; V 1 1 "hail CC"; V 2 2 "basic CC report"]; P 81 "Enable/disable battery group notification" 1 [V 0 0 "nothing"; V 1 1 "Configuration report parameter 42"]; P 241 "Pair doorbell with button" 4 [V 0 0 ""]; P 252 "Lock configuration" 1 [V 0 1 ""]; P 255 "Reset" 4 [V 0 0 ""]].
Definition dpar49 : list gparam := [P 2 "Repetitions of ringtone" 1 [V 0 100 ""]; P 5 "Default ringtone" 1 [V 1 100 ""]; P 6 "Ringtone to play" 1 [V 0 0 "Stop"; V 255 255 "play the default ringtone"]; P 7 "Control items" 1 [V 0 0 "Ignore"; V 1 1 "Play"; V 2 2 "Stop"; V 3 3 "Pause"; V 4 4 "Next"; V 5 5 "Previous"]; P 8 "Ringtone volume" 1 [V 0 10 ""]; P 10 "Define button- and button+ action" 1 [V 0 0 "“Button ‐” is previous, “Button+” is next"; V 1 1 "“Button ‐” is next, “Button+” is previous"]; P 11 "Define long press button- and button+" 1 [V 0 0 "short press changes vol, long press changes default ringtone"; V 1 1 "long press changes vol, short press changes default ringtone"]; P 42 "Get wireless button battery status" 1 [V 0 0 "Battery Level Good"; V 255 255 "Low Battery"]; P 80 "Enable Notifications" 1 [V 0 0 "nothing"; V 1 1 "hail CC"; V 2 2 "basic CC report"]; P 81 "Enable/disable battery group notification" 1 [V 0 0 "nothing"; V 1 1 "Configuration report parameter 42"]; P 241 "Pair doorbell with button" 4 [V 0 0 ""]; P 252 "Lock configuration" 1 [V 0 1 ""]; P 255 "Reset" 4 [V 0 0 ""]].
Definition dpar50 : list gparam := [P 2 "Repetitions of ringtone" 1 [V 0 100 ""]; P 5 "Default ringtone" 1 [V 1 100 ""]; P 6 "Ringtone to play" 1 [V 0 0 "Stop"; V 255 255 "play the default ringtone"]; P 7 "Control items" 1 [V 0 0 "Ignore"; V 1 1 "Play"; V 2 2 "Stop"; V 3 3 "Pause"; V 4 4 "Next"; V 5 5 "Previous"]; P 8 "Ringtone volume" 1 [V 0 10 ""]; P 10 "Define button- and button+ action" 1 [V 0 0 "“Button ‐” is previous, “Button+” is next"; V 1 1 "“Button ‐” is next, “Button+” is previous"]; P 11 "Define long press button- and button+" 1 [V 0 0 "short press changes vol, long press changes default ringtone"; V 1 1 "long press changes vol, short press changes default ringtone"]; P 42 "Get wireless button battery status" 1 [V 0 0 "Battery Level Good"; V 255 255 "Low Battery"]; P 80 "Enable Notifications" 1 [V 0 0 "nothing"; V 1 1 "hail CC"; V 2 2 "basic CC report"]; P 81 "Enable/disable battery group notification" 1 [V 0 0 "nothing"; V 1 1 "Configuration report parameter 42"]; P 241 "Pair doorbell with button" 4 [V 0 0 ""]; P 252 "Lock configuration" 1 [V 0 1 ""]; P 255 "Reset" 4 [V 0 0 ""]].
Definition dpar51 : list gparam := [P 32 "Startup ringtone" 1 [V 1 100 ""]; P 34 "Sensor Calibration" 1 [V 0 0 "Calibration not active"; V 1 1 "Begin calibration"]; P 35 "Calibration timout" 2 [V 1 255 ""]; P 36 "Number of alarm musics" 1 [V 1 100 ""]; P 37 "Disable opening alarm" 4 [V 0 0 "Disable alarm prompt"; V 1 1 "Enable alarm prompt"]; P 37 "Opening alarm volume" 4 [V 1 10 ""]; P 37 "Opening alarm choice" 4 [V 1 4 ""]; P 37 "Opening alarm LED mode" 4 [V 1 10 ""]; P 38 "Disable closing alarm" 4 [V 0 0 "Disable alarm prompt"; V 1 1 "Enable alarm prompt"]; P 38 "Closing alarm volume" 4 [V 1 10 ""]; P 38 "Closing alarm choice" 4 [V 1 4 ""]; P 38 "Closing alarm LED mode" 4 [V 1 10 ""]; P 39 "Unknown state alarm mode" 4 [V 0 0 ""]; P 40 "Closed alarm mode" 4 [V 0 0 ""]; P 41 "Tamper switch configuration" 1 [V 0 255 ""]; P 42 "Battery state" 1 [V 0 16 ""]; P 43 "Play or Pause ringtone" 1 [V 1 255 ""]; P 44 "Ringtone test volume" 1 [V 1 10 ""]; P 45 "Temperature" 2 [V 0 500 ""]; P 47 "Button definition" 1 [V 0 0 "Mode 0"; V 1 1 "Mode 1"]; P 80 "Door state change report type" 1 [V 1 1 "Send hail CC"; V 2 2 "Send barrier operator report CC"]; P 241 "Pair the Sensor" 4 [V 0 0 "Stop sensor pairing"; V 1431655681 1431655681 "Start sensor pairing"]; P 252 "Lock Configuration" 1 [V 0 0 "Configuration enabled"; V 1 1 "Configuration disabled (locked)"]].
Definition dpar52 : list gparam := [P 32 "Startup ringtone" 1 [V 1 100 ""]; P 34 "Sensor Calibration" 1 [V 0 0 "Calibration not active"; V 1 1 "Begin calibration"]; P 35 "Calibration timout" 2 [V 1 255 ""]; P 36 "Number of alarm musics" 1 [V 1 100 ""]; P 37 "Disable opening alarm" 4 [V 0 0 "Disable alarm prompt"; V 1 1 "Enable alarm prompt"]; P 37 "Opening alarm volume" 4 [V 1 10 ""]; P 37 "Opening alarm choice" 4 [V 1 4 ""]; P 37 "Opening alarm LED mode" 4 [V 1 10 ""]; P 38 "Disable closing alarm" 4 [V 0 0 "Disable alarm prompt"; V 1 1 "Enable alarm prompt"]; P 38 "Closing alarm volume" 4 [V 1 10 ""]; P 38 "Closing alarm choice" 4 [V 1 4 ""]; P 38 "Closing alarm LED mode" 4 [V 1 10 ""]; P 39 "Unknown state alarm mode" 4 [V 0 0 ""]; P 40 "Closed alarm mode" 4 [V 0 0 ""]; P 41 "Tamper switch configuration" 1 [V 0 255 ""]; P 42 "Battery state" 1 [V 0 16 ""]; P 43 "Play or Pause ringtone" 1 [V 1 255 ""]; P 44 "Ringtone test volume" 1 [V 1 10 ""]; P 45 "Temperature" 2 [V 0 500 ""]; P 47 "Button definition" 1 [V 0 0 "Mode 0"; V 1 1 "Mode 1"]; P 80 "Door state change report type" 1 [V 1 1 "Send hail CC"; V 2 2 "Send barrier operator report CC"]; P 241 "Pair the Sensor" 4 [V 0 0 "Stop sensor pairing"; V 1431655681 1431655681 "Start sensor pairing"]; P 252 "Lock Configuration" 1 [V 0 0 "Configuration enabled"; V 1 1 "Configuration disabled (locked)"]].
Definition dpar53 : list gparam := [P 32 "Startup ringtone" 1 [V 1 100 ""]; P 34 "Sensor Calibration" 1 [V 0 0 "Calibration not active"; V 1 1 "Begin calibration"]; P 35 "Calibration timout" 2 [V 1 255 ""]; P 36 "Number of alarm musics" 1 [V 1 100 ""]; P 37 "Disable opening alarm" 4 [V 0 0 "Disable alarm prompt"; V 1 1 "Enable alarm prompt"]; P 37 "Opening alarm volume" 4 [V 1 10 ""]; P 37 "Opening alarm choice" 4 [V 1 4 ""]; P 37 "Opening alarm LED mode" 4 [V 1 10 ""]; P 38 "Disable closing alarm" 4 [V 0 0 "Disable alarm prompt"; V 1 1 "Enable alarm prompt"]; P 38 "Closing alarm volume" 4 [V 1 10 ""]; P 38 "Closing alarm choice" 4 [V 1 4 ""]; P 38 "Closing alarm LED mode" 4 [V 1 10 ""]; P 39 "Unknown state alarm mode" 4 [V 0 0 ""]; P 40 "Closed alarm mode" 4 [V 0 0 ""]; P 41 "Tamper switch configuration" 1 [V 0 255 ""]; P 42 "Battery state" 1 [V 0 16 ""]; P 43 "Play or Pause ringtone" 1 [V 1 255 ""]; P 44 "Ringtone test volume" 1 [V 1 10 ""]; P 45 "Temperature" 2 [V 0 500 ""]; P 47 "Button definition" 1 [V 0 0 "Mode 0"; V 1 1 "Mode 1"]; P 80 "Door state change report type" 1 [V 1 1 "Send hail CC"; V 2 2 "Send barrier operator report CC"]; P 241 "Pair the Sensor" 4 [V 0 0 "Stop sensor pairing"; V 1431655681 1431655681 "Start sensor pairing"]; P 252 "Lock Configuration" 1 [V 0 0 "Configuration enabled"; V 1 1 "Configuration disabled (locked)"]].
Definition dpar54 : list gparam := [P 2 "Wake up for 10 minutes when batteries are inserted" 1 [V 0 255 ""]; P 3 "On time" 2 [V 1 15300 ""]; P 4 "Motion sensor" 1 [V 0 0 "Disabled"; V 1 1 "Enabled"]; P 40 "Enable/disable the selective reporting" 1 [V 0 0 "Disable"; V 1 1 "Enable"]; P 41 "Threshold change in temperature to induce an automatic report." 2 [V 0 65535 ""]; P 42 "Threshold change in humidity to induce an automatic report." 2 [V 0 65535 ""]; P 43 "Threshold change in luminance to induce an automatic report." 2 [V 0 65535 ""]; P 44 "Threshold change in battery level to induce an automatic report." 2 [V 0 65535 ""]; P 46 "Enable/disable to send the alarm report of low temperature(‐15C)" 1 [V 0 0 "Disable"; V 1 1 "Enabled (The MultiSensor will report the Multi Level Temperature CC wi"]; P 101 "Which reports need to send automatically in timing intervals for group 1" 4 [V 0 65535 ""]; P 102 "Which reports need to send automatically in timing intervals for group 2" 4 [V 0 65535 ""]; P 103 "Which reports need to send automatically in timing intervals for group 3" 4 [V 0 65535 ""]; P 111 "Interval to send out reports of group 1" 4 [V 1 2678400 ""]; P 112 "Interval to send out reports of group 2" 4 [V 1 2678400 ""]; P 113 "Interval to send out reports of group 3" 4 [V 1 2678400 ""]; P 252 "Enable/disable Configuration Locked" 1 [V 0 0 "Disable"; V 1 1 "Enabled"]; P 255 "Reset to default factory setting." 4 [V 1 1 "Resets all configuration parameters to default setting."; V 1431655765 1431655765 "Reset the product to default factory setting and be excluded from the "]].
Definition dpar55 : list gparam := [P 2 "Wake up for 10 minutes when batteries are inserted" 1 [V 0 255 ""]; P 3 "On time" 2 [V 1 15300 ""]; P 4 "Motion sensor" 1 [V 0 0 "Disabled"; V 1 1 "Enabled"]; P 40 "Enable/disable the selective reporting" 1 [V 0 0 "Disable"; V 1 1 "Enable"]; P 41 "Threshold change in temperature to induce an automatic report." 2 [V 0 65535 ""]; P 42 "Threshold change in humidity to induce an automatic report." 2 [V 0 65535 ""]; P 43 "Threshold change in luminance to induce an automatic report." 2 [V 0 65535 ""]; P 44 "Threshold change in battery level to induce an automatic report." 2 [V 0 65535 ""]; P 46 "Enable/disable to send the alarm report of low temperature(‐15C)" 1 [V 0 0 "Disable"; V 1 1 "Enabled (The MultiSensor will report the Multi Level Temperature CC wi"]; P 101 "Which reports need to send automatically in timing intervals for group 1" 4 [V 0 65535 ""]; P 102 "Which reports need to send automatically in timing intervals for group 2" 4 [V 0 65535 ""]; P 103 "Which reports need to send automatically in timing intervals for group 3" 4 [V 0 65535 ""]; P 111 "Interval to send out reports of group 1" 4 [V 1 2678400 ""]; P 112 "Interval to send out reports of group 2" 4 [V 1 2678400 ""]; P 113 "Interval to send out reports of group 3" 4 [V 1 2678400 ""]; P 252 "Enable/disable Configuration Locked" 1 [V 0 0 "Disable"; V 1 1 "Enabled"]; P 255 "Reset to default factory setting." 4 [V 1 1 "Resets all configuration parameters to default setting."; V 1431655765 1431655765 "Reset the product to default factory setting and be excluded from the "]].
Definition dpar56 : list gparam := [P 2 "Wake up for 10 minutes when batteries are inserted" 1 [V 0 255 ""]; P 3 "On time" 2 [V 1 15300 ""]; P 4 "Motion sensor" 1 [V 0 0 "Disabled"; V 1 1 "Enabled"]; P 40 "Enable/disable the selective reporting" 1 [V 0 0 "Disable"; V 1 1 "Enable"]; P 41 "Threshold change in temperature to induce an automatic report." 2 [V 0 65535 ""]; P 42 "Threshold change in humidity to induce an automatic report." 2 [V 0 65535 ""]; P 43 "Threshold change in luminance to induce an automatic report." 2 [V 0 65535 ""]; P 44 "Threshold change in battery level to induce an automatic report." 2 [V 0 65535 ""]; P 46 "Enable/disable to send the alarm report of low temperature(‐15C)" 1 [V 0 0 "Disable"; V 1 1 "Enabled (The MultiSensor will report the Multi Level Temperature CC wi"]; P 101 "Which reports need to send automatically in timing intervals for group 1" 4 [V 0 65535 ""]; P 102 "Which reports need to send automatically in timing intervals for group 2" 4 [V 0 65535 ""]; P 103 "Which reports need to send automatically in timing intervals for group 3" 4 [V 0 65535 ""]; P 111 "Interval to send out reports of group 1" 4 [V 1 2678400 ""]; P 112 "Interval to send out reports of group 2" 4 [V 1 2678400 ""]; P 113 "Interval to send out reports of group 3" 4 [V 1 2678400 ""]; P 252 "Enable/disable Configuration Locked" 1 [V 0 0 "Disable"; V 1 1 "Enabled"]; P 255 "Reset to default factory setting." 4 [V 1 1 "Resets all configuration parameters to default setting."; V 1431655765 1431655765 "Reset the product to default factory setting and be excluded from the "]].
Definition dpar57 : list gparam := [P 2 "Blinking Behaviour" 2 [V 0 65535 ""]; P 3 "Current Overload Protection" 1 [V 0 0 "Disabled"; V 1 1 "Enabled"]; P 20 "Output Load Status" 1 [V 0 0 "Last Status"; V 1 1 "Always On"; V 2 2 "Always Off"]; P 80 "Notification on Status Change" 1 [V 0 0 "Disable"; V 1 1 "Hail CC Sent"; V 2 2 "Basic CC Report Sent"]; P 81 "Configure the state of red LED " 1 [V 0 0 "The LED will follow the status of its load"; V 1 1 "Switch off after 5 seconds"]; P 90 "Enables/disables parameter 91/92" 1 [V 0 0 "Disable"; V 1 1 "Enable"]; P 91 "Minimum Change to send Report (Watt)" 2 [V 0 32000 ""]; P 92 "Minimum Change to send Report (%)" 1 [V 0 100 ""]; P 100 "Set 101‐103 to default" 1 [V 0 0 "Set to Default"; V 1 1 "Nothing"]; P 101 "Report type to send to Group 1" 4 [V 0 65535 ""]; P 102 "Report type to send to Group 2" 4 [V 0 65535 ""]; P 103 "Report type to send to Group 3" 4 [V 0 65535 ""]; P 111 "Interval to send out reports to Group 1" 4 [V 0 65535 ""]; P 112 "Interval to send out reports of group 2" 4 [V 0 65535 ""]; P 113 "Interval to send out reports of group 3" 4 [V 0 65535 ""]; P 252 "Enable/disable Configuration Lock" 1 [V 0 0 "Disable"; V 1 1 "Enable"]].
Definition dpar58 : list gparam := [P 2 "Blinking Behaviour" 2 [V 0 65535 ""]; P 3 "Current Overload Protection" 1 [V 0 0 "Disabled"; V 1 1 "Enabled"]; P 20 "Output Load Status" 1 [V 0 0 "Last Status"; V 1 1 "Always On"; V 2 2 "Always Off"]; P 80 "Notification on Status Change" 1 [V 0 0 "Disable"; V 1 1 "Hail CC Sent"; V 2 2 "Basic CC Report Sent"]; P 81 "Configure the state of red LED " 1 [V 0 0 "The LED will follow the status of its load"; V 1 1 "Switch off after 5 seconds"]; P 90 "Enables/disables parameter 91/92" 1 [V 0 0 "Disable"; V 1 1 "Enable"]; P 91 "Minimum Change to send Report (Watt)" 2 [V 0 32000 ""]; P 92 "Minimum Change to send Report (%)" 1 [V 0 100 ""]; P 100 "Set 101‐103 to default" 1 [V 0 0 "Set to Default"; V 1 1 "Nothing"]; P 101 "Report type to send to Group 1" 4 [V 0 65535 ""]; P 102 "Report type to send to Group 2" 4 [V 0 65535 ""]; P 103 "Report type to send to Group 3" 4 [V 0 65535 ""]; P 111 "Interval to send out reports to Group 1" 4 [V 0 65535 ""]; P 112 "Interval to send out reports of group 2" 4 [V 0 65535 ""]; P 113 "Interval to send out reports of group 3" 4 [V 0 65535 ""]; P 252 "Enable/disable Configuration Lock" 1 [V 0 0 "Disable"; V 1 1 "Enable"]].
Definition dpar59 : list gparam := [P 3 "Current Overload Protection" 1 [V 0 0 "Deactivate"; V 1 1 "Activate"]; P 20 "Output Load Status" 1 [V 0 0 "Last Status"; V 1 1 "Always ON"; V 2 2 "Always OFF"]; P 80 "Notification on Status Change" 1 [V 0 0 "Deactivate"; V 1 1 "Hail CC Sent"; V 2 2 "Basic CC Report Sent"]; P 90 "Send report on value change" 1 [V 0 0 "Deavtivate"; V 1 1 "Activate"]; P 91 "Minimum Change to send Report (Watt)" 2 [V 0 65535 ""]; P 92 "Minimum Change to send Report (%)" 1 [V 0 255 ""]; P 101 "reports to send automatically" 4 [V 0 65535 ""]; P 102 "which reports to send to group 2" 4 [V 0 65535 ""]; P 103 "which reports to send to group 3" 4 [V 0 65535 ""]; P 111 "Interval to send out reports of group 1" 4 [V 1 2678400 ""]; P 112 "Interval to send out reports of group 2" 4 [V 1 2678400 ""]; P 113 "Interval to send out reports of group 3" 4 [V 1 2678400 ""]; P 120 "Turn External Button Mode" 1 [V 0 0 "Momentary Button Mode"; V 1 1 "2 State Switch Mode"; V 2 2 "3 Way Switch Mode"]].
Definition dpar60 : list gparam := [P 3 "Current Overload Protection" 1 [V 0 0 "Deactivate"; V 1 1 "Activate"]; P 20 "Output Load Status" 1 [V 0 0 "Last Status"; V 1 1 "Always ON"; V 2 2 "Always OFF"]; P 80 "Notification on Status Change" 1 [V 0 0 "Deactivate"; V 1 1 "Hail CC Sent"; V 2 2 "Basic CC Report Sent"]; P 90 "Send report on value change" 1 [V 0 0 "Deavtivate"; V 1 1 "Activate"]; P 91 "Minimum Change to send Report (Watt)" 2 [V 0 65535 ""]; P 92 "Minimum Change to send Report (%)" 1 [V 0 255 ""]; P 101 "reports to send automatically" 4 [V 0 65535 ""]; P 102 "which reports to send to group 2" 4 [V 0 65535 ""]; P 103 "which reports to send to group 3" 4 [V 0 65535 ""]; P 111 "Interval to send out reports of group 1" 4 [V 1 2678400 ""]; P 112 "Interval to send out reports of group 2" 4 [V 1 2678400 ""]; P 113 "Interval to send out reports of group 3" 4 [V 1 2678400 ""]; P 120 "Turn External Button Mode" 1 [V 0 0 "Momentary Button Mode"; V 1 1 "2 State Switch Mode"; V 2 2 "3 Way Switch Mode"]].
Definition dpar61 : list gparam := [P 3 "Current Overload Protection" 1 [V 0 0 "Deactivate"; V 1 1 "Activate"]; P 20 "Output Load Status" 1 [V 0 0 "Last Status"; V 1 1 "Always ON"; V 2 2 "Always OFF"]; P 80 "Notification on Status Change" 1 [V 0 0 "Deactivate"; V 1 1 "Hail CC Sent"; V 2 2 "Basic CC Report Sent"]; P 90 "Send report on value change" 1 [V 0 0 "Deavtivate"; V 1 1 "Activate"]; P 91 "Minimum Change to send Report (Watt)" 2 [V 0 65535 ""]; P 92 "Minimum Change to send Report (%)" 1 [V 0 255 ""]; P 101 "reports to send automatically" 4 [V 0 65535 ""]; P 102 "which reports to send to group 2" 4 [V 0 65535 ""]; P 103 "which reports to send to group 3" 4 [V 0 65535 ""]; P 111 "Interval to send out reports of group 1" 4 [V 1 2678400 ""]; P 112 "Interval to send out reports of group 2" 4 [V 1 2678400 ""]; P 113 "Interval to send out reports of group 3" 4 [V 1 2678400 ""]; P 120 "Turn External Button Mode" 1 [V 0 0 "Momentary Button Mode"; V 1 1 "2 State Switch Mode"; V 2 2 "3 Way Switch Mode"]].
Definition dpar62 : list gparam := [P 37 "Siren Sound" 2 [V 0 0 "Do not change the current Siren sound"; V 1 1 "Siren sound 1 is selected"; V 2 2 "Siren sound 2 is selected"; V 3 3 "Siren sound 3 is selected"; V 4 4 "Siren sound 4 is selected"; V 5 5 "Siren sound 5 is selected"]; P 37 "Siren Volume" 2 [V 0 0 "Do not change the current volume"; V 1 1 "Set the volume to 88 dB"; V 2 2 "Set the volume to 100 dB"; V 3 3 "Set the volume to 105 dB"]; P 80 "Enable Notifications to Group 1" 1 [V 0 255 ""]; P 200 "Partner ID" 1 [V 0 255 ""]; P 252 "Enable/disable Lock Configuration" 1 [V 0 0 "Setting of configuration parameters is allowed"; V 1 1 "All configuration parameters cannot be set (Locked)"]].
Definition dpar63 : list gparam := [P 37 "Siren Sound" 2 [V 0 0 "Do not change the current Siren sound"; V 1 1 "Siren sound 1 is selected"; V 2 2 "Siren sound 2 is selected"; V 3 3 "Siren sound 3 is selected"; V 4 4 "Siren sound 4 is selected"; V 5 5 "Siren sound 5 is selected"]; P 37 "Siren Volume" 2 [V 0 0 "Do not change the current volume"; V 1 1 "Set the volume to 88 dB"; V 2 2 "Set the volume to 100 dB"; V 3 3 "Set the volume to 105 dB"]; P 80 "Enable Notifications to Group 1" 1 [V 0 255 ""]; P 200 "Partner ID" 1 [V 0 255 ""]; P 252 "Enable/disable Lock Configuration" 1 [V 0 0 "Setting of configuration parameters is allowed"; V 1 1 "All configuration parameters cannot be set (Locked)"]].
Definition dpar64 : list gparam := [P 250 "Use Mode setting" 1 [V 0 0 "Group Mode"; V 1 1 "Scene Mode"]].
Definition dpar65 : list gparam := [P 250 "Use Mode setting" 1 [V 0 0 "Group Mode"; V 1 1 "Scene Mode"]].
Definition dpar66 : list gparam := [P 250 "Use Mode setting" 1 [V 0 0 "Group Mode"; V 1 1 "Scene Mode"]].
Definition dpar67 : list gparam := [P 1 "Send Sensor binary report on open/close events" 1 [V 0 0 "On for opened, Off for closed"; V 1 1 "Off for opened, On for closed"]; P 3 "Send Basic Set on open/close event" 1 [V 0 0 "On for opened, Off for closed"; V 1 1 "Off for opened, On for closed"]; P 101 "Low battery voltage check" 1 [V 0 0 "Disable"; V 1 1 "Enable"]; P 111 "Low battery voltage check time" 4 [V 240 2147483647 ""]; P 121 "Configuration Value 4(LSB) SENSOR BINARY" 4 [V 0 0 "disable SENSOR BINARY (factory)"; V 16 16 "enable SENSOR BINARY"]; P 121 "Config value 3 - BASIC SET" 4 [V 0 0 "do not send BASIC SET"; V 1 1 "send BASIC SET (factory default)"]; P 252 "Permit other configurations" 1 [V 0 0 "Unlock"; V 1 1 "Lock"]; P 255 "Reset to default" 1 [V 0 255 ""]].
Definition dpar68 : list gparam := [P 1 "Send Sensor binary report on open/close events" 1 [V 0 0 "On for opened, Off for closed"; V 1 1 "Off for opened, On for closed"]; P 3 "Send Basic Set on open/close event" 1 [V 0 0 "On for opened, Off for closed"; V 1 1 "Off for opened, On for closed"]; P 101 "Low battery voltage check" 1 [V 0 0 "Disable"; V 1 1 "Enable"]; P 111 "Low battery voltage check time" 4 [V 240 2147483647 ""]; P 121 "Configuration Value 4(LSB) SENSOR BINARY" 4 [V 0 0 "disable SENSOR BINARY (factory)"; V 16 16 "enable SENSOR BINARY"]; P 121 "Config value 3 - BASIC SET" 4 [V 0 0 "do not send BASIC SET"; V 1 1 "send BASIC SET (factory default)"]; P 252 "Permit other configurations" 1 [V 0 0 "Unlock"; V 1 1 "Lock"]; P 255 "Reset to default" 1 [V 0 255 ""]].
Definition dpar69 : list gparam := [P 1 "Send Sensor binary report on open/close events" 1 [V 0 0 "On for opened, Off for closed"; V 1 1 "Off for opened, On for closed"]; P 3 "Send Basic Set on open/close event" 1 [V 0 0 "On for opened, Off for closed"; V 1 1 "Off for opened, On for closed"]; P 101 "Low battery voltage check" 1 [V 0 0 "Disable"; V 1 1 "Enable"]; P 111 "Low battery voltage check time" 4 [V 240 2147483647 ""]; P 121 "Configuration Value 4(LSB) SENSOR BINARY" 4 [V 0 0 "disable SENSOR BINARY (factory)"; V 16 16 "enable SENSOR BINARY"]; P 121 "Config value 3 - BASIC SET" 4 [V 0 0 "do not send BASIC SET"; V 1 1 "send BASIC SET (factory default)"]; P 252 "Permit other configurations" 1 [V 0 0 "Unlock"; V 1 1 "Lock"]; P 255 "Reset to default" 1 [V 0 255 ""]].
Definition dpar70 : list gparam := [P 2 "Energy detection mode" 1 [V 0 0 "Disabled"; V 1 1 "Enabled"]; P 3 "Selective Reporting" 1 [V 0 16 ""]; P 4 "Current Threshold - Whole HEM" 2 [V 0 60000 ""]; P 5 "Current Threshold - Clamp 1" 2 [V 0 60000 ""]; P 6 "Current Threshold - Clamp 2" 2 [V 0 60000 ""]; P 7 "Current Threshold - Clamp 3" 2 [V 0 60000 ""]; P 8 "Percent Change - Whole HEM" 1 [V 0 100 ""]; P 9 "Percent Change - Clamp 1" 1 [V 0 100 ""]; P 10 "Percent Change - Clamp 2" 1 [V 0 100 ""]; P 11 "Percent Change - Clamp 3" 1 [V 0 100 ""]; P 101 "Report Group 1" 4 [V 0 2147483647 ""]; P 102 "Report Group 2" 4 [V 0 2147483647 ""]; P 103 "Report Group 3" 4 [V 0 2147483647 ""]; P 111 "Interval to send out reports of group 1" 4 [V 1 2147483647 ""]; P 112 "Interval to send out reports of group 2" 4 [V 1 2147483647 ""]; P 113 "Interval to send out reports of group 3" 4 [V 1 2147483647 ""]].
Definition dpar71 : list gparam := [P 2 "Energy detection mode" 1 [V 0 0 "Disabled"; V 1 1 "Enabled"]; P 3 "Selective Reporting" 1 [V 0 16 ""]; P 4 "Current Threshold - Whole HEM" 2 [V 0 60000 ""]; P 5 "Current Threshold - Clamp 1" 2 [V 0 60000 ""]; P 6 "Current Threshold - Clamp 2" 2 [V 0 60000 ""]; P 7 "Current Threshold - Clamp 3" 2 [V 0 60000 ""]; P 8 "Percent Change - Whole HEM" 1 [V 0 100 ""]; P 9 "Percent Change - Clamp 1" 1 [V 0 100 ""]; P 10 "Percent Change - Clamp 2" 1 [V 0 100 ""]; P 11 "Percent Change - Clamp 3" 1 [V 0 100 ""]; P 101 "Report Group 1" 4 [V 0 2147483647 ""]; P 102 "Report Group 2" 4 [V 0 2147483647 ""]; P 103 "Report Group 3" 4 [V 0 2147483647 ""]; P 111 "Interval to send out reports of group 1" 4 [V 1 2147483647 ""]; P 112 "Interval to send out reports of group 2" 4 [V 1 2147483647 ""]; P 113 "Interval to send out reports of group 3" 4 [V 1 2147483647 ""]].
Definition dpar72 : list gparam := [P 3 "Current overload protection enable" 1 [V 0 0 "disabled"; V 1 1 "enabled"]; P 20 "Output load after re-power" 1 [V 0 0 "last status"; V 1 1 "always on"; V 2 2 "always off"]; P 33 "RGB LED color testing" 4 [V 0 0 ""]; P 80 "Enable send to associated devices" 1 [V 0 0 "nothing"; V 1 1 "hail CC"; V 2 2 "basic CC report"]; P 81 "Configure LED state" 1 [V 0 0 "LED follows load"; V 1 1 "LED follows load for 5 seconds"; V 2 2 "Night light mode"]; P 83 "Color in night light mode" 3 [V 0 255 ""]; P 83 "Blue night light color value" 3 [V 0 255 ""]; P 83 "Green night light color value" 3 [V 0 255 ""]; P 83 "Red night light color value" 3 [V 0 255 ""]; P 84 "Color in energy mode " 3 [V 0 255 ""]; P 84 "Green brightness in energy mode (%)" 3 [V 0 100 ""]; P 84 "Yellow brightness in energy mode (%)" 3 [V 0 100 ""]; P 84 "Red brightness in energy mode (%)" 3 [V 0 100 ""]; P 90 "Enable items 91 and 92" 1 [V 0 0 "disabled"; V 1 1 "enabled"]; P 91 "Wattage Threshold" 2 [V 0 60000 ""]; P 92 "Wattage Percent Change" 1 [V 0 100 ""]; P 100 "Set 101‐103 to default. " 1 [V 0 0 "False"; V 1 1 "True"]; P 101 "Values to send to group 1" 4 [V 0 0 "Nothing"; V 1 1 "Voltage"; V 2 2 "Current"; V 4 4 "Wattage"; V 8 8 "kWh"; V 15 15 "All Values"]; P 102 "Values to send to group 2" 4 [V 0 0 "Nothing"; V 1 1 "Voltage"; V 2 2 "Current"; V 4 4 "Wattage"; V 8 8 "kWh"; V 15 15 "All Values"]; P 103 "Values to send to group 3" 4 [V 0 0 "Nothing"; V 1 1 "Voltage"; V 2 2 "Current"; V 4 4 "Wattage"; V 8 8 "kWh"; V 15 15 "All Values"]; P 110 "Set 111‐113 to default." 1 [V 0 0 "False"; V 1 1 "True"]; P 111 "Time interval for sending to group 1" 4 [V 1 2147483647 ""]; P 112 "Time interval for sending to group 2" 4 [V 1 2147483647 ""]; P 113 "Time interval for sending to group 3" 4 [V 600 1 ""]; P 252 "Configuration Locked" 1 [V 0 0 "disabled"; V 1 1 "enabled"]; P 255 "RESET" 1 [V 0 1 ""]].
Definition dpar73 : list gparam := [P 3 "Current overload protection enable" 1 [V 0 0 "disabled"; V 1 1 "enabled"]; P 20 "Output load after re-power" 1 [V 0 0 "last status"; V 1 1 "always on"; V 2 2 "always off"]; P 33 "RGB LED color testing" 4 [V 0 0 ""]; P 80 "Enable send to associated devices" 1 [V 0 0 "nothing"; V 1 1 "hail CC"; V 2 2 "basic CC report"]; P 81 "Configure LED state" 1 [V 0 0 "LED follows load"; V 1 1 "LED follows load for 5 seconds"; V 2 2 "Night light mode"]; P 83 "Color in night light mode" 3 [V 0 255 ""]; P 83 "Blue night light color value" 3 [V 0 255 ""]; P 83 "Green night light color value" 3 [V 0 255 ""]; P 83 "Red night light color value" 3 [V 0 255 ""]; P 84 "Color in energy mode " 3 [V 0 255 ""]; P 84 "Green brightness in energy mode (%)" 3 [V 0 100 ""]; P 84 "Yellow brightness in energy mode (%)" 3 [V 0 100 ""]; P 84 "Red brightness in energy mode (%)" 3 [V 0 100 ""]; P 90 "Enable items 91 and 92" 1 [V 0 0 "disabled"; V 1 1 "enabled"]; P 91 "Wattage Threshold" 2 [V 0 60000 ""]; P 92 "Wattage Percent Change" 1 [V 0 100 ""]; P 100 "Set 101‐103 to default. " 1 [V 0 0 "False"; V 1 1 "True"]; P 101 "Values to send to group 1" 4 [V 0 0 "Nothing"; V 1 1 "Voltage"; V 2 2 "Current"; V 4 4 "Wattage"; V 8 8 "kWh"; V 15 15 "All Values"]; P 102 "Values to send to group 2" 4 [V 0 0 "Nothing"; V 1 1 "Voltage"; V 2 2 "Current"; V 4 4 "Wattage"; V 8 8 "kWh"; V 15 15 "All Values"]; P 103 "Values to send to group 3" 4 [V 0 0 "Nothing"; V 1 1 "Voltage"; V 2 2 "Current"; V 4 4 "Wattage"; V 8 8 "kWh"; V 15 15 "All Values"]; P 110 "Set 111‐113 to default." 1 [V 0 0 "False"; V 1 1 "True"]; P 111 "Time interval for sending to group 1" 4 [V 1 2147483647 ""]; P 112 "Time interval for sending to group 2" 4 [V 1 2147483647 ""]; P 113 "Time interval for sending to group 3" 4 [V 600 1 ""]; P 252 "Configuration Locked" 1 [V 0 0 "disabled"; V 1 1 "enabled"]; P 255 "RESET" 1 [V 0 1 ""]].
Definition dpar74 : list gparam := [P 3 "Current overload protection enable" 1 [V 0 0 "disabled"; V 1 1 "enabled"]; P 20 "Output load after re-power" 1 [V 0 0 "last status"; V 1 1 "always on"; V 2 2 "always off"]; P 33 "RGB LED color testing" 4 [V 0 0 ""]; P 80 "Enable send to associated devices" 1 [V 0 0 "nothing"; V 1 1 "hail CC"; V 2 2 "basic CC report"]; P 81 "Configure LED state" 1 [V 0 0 "LED follows load"; V 1 1 "LED follows load for 5 seconds"; V 2 2 "Night light mode"]; P 83 "Color in night light mode" 3 [V 0 255 ""]; P 83 "Blue night light color value" 3 [V 0 255 ""]; P 83 "Green night light color value" 3 [V 0 255 ""]; P 83 "Red night light color value" 3 [V 0 255 ""]; P 84 "Color in energy mode " 3 [V 0 255 ""]; P 84 "Green brightness in energy mode (%)" 3 [V 0 100 ""]; P 84 "Yellow brightness in energy mode (%)" 3 [V 0 100 ""]; P 84 "Red brightness in energy mode (%)" 3 [V 0 100 ""]; P 90 "Enable items 91 and 92" 1 [V 0 0 "disabled"; V 1 1 "enabled"]; P 91 "Wattage Threshold" 2 [V 0 60000 ""]; P 92 "Wattage Percent Change" 1 [V 0 100 ""]; P 100 "Set 101‐103 to default. " 1 [V 0 0 "False"; V 1 1 "True"]; P 101 "Values to send to group 1" 4 [V 0 0 "Nothing"; V 1 1 "Voltage"; V 2 2 "Current"; V 4 4 "Wattage"; V 8 8 "kWh"; V 15 15 "All Values"]; P 102 "Values to send to group 2" 4 [V 0 0 "Nothing"; V 1 1 "Voltage"; V 2 2 "Current"; V 4 4 "Wattage"; V 8 8 "kWh"; V 15 15 "All Values"]; P 103 "Values to send to group 3" 4 [V 0 0 "Nothing"; V 1 1 "Voltage"; V 2 2 "Current"; V 4 4 "Wattage"; V 8 8 "kWh"; V 15 15 "All Values"]; P 110 "Set 111‐113 to default." 1 [V 0 0 "False"; V 1 1 "True"]; P 111 "Time interval for sending to group 1" 4 [V 1 2147483647 ""]; P 112 "Time interval for sending to group 2" 4 [V 1 2147483647 ""]; P 113 "Time interval for sending to group 3" 4 [V 600 1 ""]; P 252 "Configuration Locked" 1 [V 0 0 "disabled"; V 1 1 "enabled"]; P 255 "RESET" 1 [V 0 1 ""]].
Definition dpar75 : list gparam := [P 3 "Current overload protection enable" 1 [V 0 0 "disabled"; V 1 1 "enabled"]; P 20 "Output load after re-power" 1 [V 0 0 "last status"; V 1 1 "always on"; V 2 2 "always off"]; P 33 "RGB LED color testing" 4 [V 0 0 ""]; P 80 "Enable send to associated devices" 1 [V 0 0 "nothing"; V 1 1 "hail CC"; V 2 2 "basic CC report"]; P 81 "Configure LED state" 1 [V 0 0 "LED follows load"; V 1 1 "LED follows load for 5 seconds"; V 2 2 "Night light mode"]; P 83 "Color in night light mode" 3 [V 0 255 ""]; P 83 "Blue night light color value" 3 [V 0 255 ""]; P 83 "Green night light color value" 3 [V 0 255 ""]; P 83 "Red night light color value" 3 [V 0 255 ""]; P 84 "Color in energy mode " 3 [V 0 255 ""]; P 84 "Green brightness in energy mode (%)" 3 [V 0 100 ""]; P 84 "Yellow brightness in energy mode (%)" 3 [V 0 100 ""]; P 84 "Red brightness in energy mode (%)" 3 [V 0 100 ""]; P 90 "Enable items 91 and 92" 1 [V 0 0 "disabled"; V 1 1 "enabled"]; P 91 "Wattage Threshold" 2 [V 0 60000 ""]; P 92 "Wattage Percent Change" 1 [V 0 100 ""]; P 100 "Set 101‐103 to default. " 1 [V 0 0 "False"; V 1 1 "True"]; P 101 "Values to send to group 1" 4 [V 0 0 "Nothing"; V 1 1 "Voltage"; V 2 2 "Current"; V 4 4 "Wattage"; V 8 8 "kWh"; V 15 15 "All Values"]; P 102 "Values to send to group 2" 4 [V 0 0 "Nothing"; V 1 1 "Voltage"; V 2 2 "Current"; V 4 4 "Wattage"; V 8 8 "kWh"; V 15 15 "All Values"]; P 103 "Values to send to group 3" 4 [V 0 0 "Nothing"; V 1 1 "Voltage"; V 2 2 "Current"; V 4 4 "Wattage"; V 8 8 "kWh"; V 15 15 "All Values"]; P 110 "Set 111‐113 to default." 1 [V 0 0 "False"; V 1 1 "True"]; P 111 "Time interval for sending to group 1" 4 [V 1 2147483647 ""]; P 112 "Time interval for sending to group 2" 4 [V 1 2147483647 ""]; P 113 "Time interval for sending to group 3" 4 [V 600 1 ""]; P 252 "Configuration Locked" 1 [V 0 0 "disabled"; V 1 1 "enabled"]; P 255 "RESET" 1 [V 0 1 ""]].
Definition dpar76 : list gparam := [P 1 "Send Sensor binary report on open/close events" 1 [V 0 0 "On for opened, Off for closed"; V 1 1 "Off for opened, On for closed"]; P 2 "Enable wake up 10 minutes when power on" 1 [V 0 0 "No"; V 1 1 "Yes"]; P 3 "Send Basic Set on open/close event" 1 [V 0 0 "On for opened, Off for closed"; V 1 1 "Off for opened, On for closed"]; P 39 "Send battery report when less than percentage" 1 [V 10 50 ""]; P 111 "Set the interval time of battery report" 4 [V 0 2147483647 ""]; P 121 "Send Sensor Binary report to associated devices" 4 [V 0 1 ""]; P 121 "Send Basic report to associated devices" 4 [V 0 1 ""]; P 122 "Notification type to send" 1 [V 1 1 "Smoke alarm"; V 2 2 "CO alarm"; V 3 3 "CO2 alarm"; V 4 4 "Heat alarm"; V 5 5 "Water alarm"; V 6 6 "Access control"; V 7 7 "Home security"; V 8 8 "Power management"; V 9 9 "System"; V 10 10 "Emergency alarm"; V 11 11 "Timer ended"]].
Definition dpar77 : list gparam := [P 1 "Send Sensor binary report on open/close events" 1 [V 0 0 "On for opened, Off for closed"; V 1 1 "Off for opened, On for closed"]; P 2 "Enable wake up 10 minutes when power on" 1 [V 0 0 "No"; V 1 1 "Yes"]; P 3 "Send Basic Set on open/close event" 1 [V 0 0 "On for opened, Off for closed"; V 1 1 "Off for opened, On for closed"]; P 39 "Send battery report when less than percentage" 1 [V 10 50 ""]; P 111 "Set the interval time of battery report" 4 [V 0 2147483647 ""]; P 121 "Send Sensor Binary report to associated devices" 4 [V 0 1 ""]; P 121 "Send Basic report to associated devices" 4 [V 0 1 ""]; P 122 "Notification type to send" 1 [V 1 1 "Smoke alarm"; V 2 2 "CO alarm"; V 3 3 "CO2 alarm"; V 4 4 "Heat alarm"; V 5 5 "Water alarm"; V 6 6 "Access control"; V 7 7 "Home security"; V 8 8 "Power management"; V 9 9 "System"; V 10 10 "Emergency alarm"; V 11 11 "Timer ended"]].
Definition dpar78 : list gparam := [P 1 "Send Sensor binary report on open/close events" 1 [V 0 0 "On for opened, Off for closed"; V 1 1 "Off for opened, On for closed"]; P 2 "Enable wake up 10 minutes when power on" 1 [V 0 0 "No"; V 1 1 "Yes"]; P 3 "Send Basic Set on open/close event" 1 [V 0 0 "On for opened, Off for closed"; V 1 1 "Off for opened, On for closed"]; P 39 "Send battery report when less than percentage" 1 [V 10 50 ""]; P 111 "Set the interval time of battery report" 4 [V 0 2147483647 ""]; P 121 "Send Sensor Binary report to associated devices" 4 [V 0 1 ""]; P 121 "Send Basic report to associated devices" 4 [V 0 1 ""]; P 122 "Notification type to send" 1 [V 1 1 "Smoke alarm"; V 2 2 "CO alarm"; V 3 3 "CO2 alarm"; V 4 4 "Heat alarm"; V 5 5 "Water alarm"; V 6 6 "Access control"; V 7 7 "Home security"; V 8 8 "Power management"; V 9 9 "System"; V 10 10 "Emergency alarm"; V 11 11 "Timer ended"]].
Definition dpar79 : list gparam := [P 32 "Toggle send report on color change" 1 [V 0 0 "disable color updates"; V 1 1 "send HAIL CC"]; P 34 "Allow external switch to toggle bulb" 1 [V 0 0 "disabled"; V 1 1 "enabled"]; P 35 "Allow external switch to change color" 1 [V 0 0 "disabled"; V 1 1 "enabled"]; P 36 "Control color mode" 1 [V 0 0 "reboot normal mode"; V 1 1 "boot into color programming"; V 2 2 "exit color programming"; V 3 3 "save and exit color programming"]; P 37 "Colour Residence Time" 4 [V 0 255 ""]; P 37 "Colour Change Speed" 4 [V 0 255 ""]; P 37 "Cycle count" 4 [V 0 255 ""]; P 37 "Color transitions (Value 1 MSB) see Overview" 4 [V 0 0 "single color mode with smooth color transitions (default)"; V 1 1 "rainbow mode with smooth color transitions"; V 2 2 "multi color mode with smooth color transitions"; V 3 3 "random mode with smooth color transitions"; V 64 64 "single color mode with direct color transitions"; V 65 65 "rainbow color mode with direct color transitions"; V 66 66 "multi color mode with direct color transitions"; V 67 67 "random color mode with direct color transitions"; V 128 128 "single color mode with fade out/fade in transitions"; V 129 129 "rainbow color mode with fade out/fade in transitions"; V 130 130 "multi color mode with fade out/fade in transitions"; V 131 131 "random color mode with fade out/fade in transitions"]; P 38 "Color index configuration for multi mode (1,2)" 4 [V 0 136 ""]; P 38 "Color index configuration for multi mode (3,4)" 4 [V 0 136 ""]; P 38 "Color index configuration for multi mode (5.6)" 4 [V 0 136 ""]; P 38 "Color index configuration for multi mode (7,8)" 4 [V 0 136 ""]; P 80 "Enable notifications" 1 [V 0 0 "Disable"; V 1 1 "Hail"; V 2 2 "Basic"]; P 252 "Lock configuration" 1 [V 0 0 "disabled"; V 1 1 "enabled"]].
Definition dpar80 : list gparam := [P 32 "Toggle send report on color change" 1 [V 0 0 "disable color updates"; V 1 1 "send HAIL CC"]; P 34 "Allow external switch to toggle bulb" 1 [V 0 0 "disabled"; V 1 1 "enabled"]; P 35 "Allow external switch to change color" 1 [V 0 0 "disabled"; V 1 1 "enabled"]; P 36 "Control color mode" 1 [V 0 0 "reboot normal mode"; V 1 1 "boot into color programming"; V 2 2 "exit color programming"; V 3 3 "save and exit color programming"]; P 37 "Colour Residence Time" 4 [V 0 255 ""]; P 37 "Colour Change Speed" 4 [V 0 255 ""]; P 37 "Cycle count" 4 [V 0 255 ""]; P 37 "Color transitions (Value 1 MSB) see Overview" 4 [V 0 0 "single color mode with smooth color transitions (default)"; V 1 1 "rainbow mode with smooth color transitions"; V 2 2 "multi color mode with smooth color transitions"; V 3 3 "random mode with smooth color transitions"; V 64 64 "single color mode with direct color transitions"; V 65 65 "rainbow color mode with direct color transitions"; V 66 66 "multi color mode with direct color transitions"; V 67 67 "random color mode with direct color transitions"; V 128 128 "single color mode with fade out/fade in transitions"; V 129 129 "rainbow color mode with fade out/fade in transitions"; V 130 130 "multi color mode with fade out/fade in transitions"; V 131 131 "random color mode with fade out/fade in transitions"]; P 38 "Color index configuration for multi mode (1,2)" 4 [V 0 136 ""]; P 38 "Color index configuration for multi mode (3,4)" 4 [V 0 136 ""]; P 38 "Color index configuration for multi mode (5.6)" 4 [V 0 136 ""]; P 38 "Color index configuration for multi mode (7,8)" 4 [V 0 136 ""]; P 80 "Enable notifications" 1 [V 0 0 "Disable"; V 1 1 "Hail"; V 2 2 "Basic"]; P 252 "Lock configuration" 1 [V 0 0 "disabled"; V 1 1 "enabled"]].
Definition dpar81 : list gparam := [P 32 "Toggle send report on color change" 1 [V 0 0 "disable color updates"; V 1 1 "send HAIL CC"]; P 34 "Allow external switch to toggle bulb" 1 [V 0 0 "disabled"; V 1 1 "enabled"]; P 35 "Allow external switch to change color" 1 [V 0 0 "disabled"; V 1 1 "enabled"]; P 36 "Control color mode" 1 [V 0 0 "reboot normal mode"; V 1 1 "boot into color programming"; V 2 2 "exit color programming"; V 3 3 "save and exit color programming"]; P 37 "Colour Residence Time" 4 [V 0 255 ""]; P 37 "Colour Change Speed" 4 [V 0 255 ""]; P 37 "Cycle count" 4 [V 0 255 ""]; P 37 "Color transitions (Value 1 MSB) see Overview" 4 [V 0 0 "single color mode with smooth color transitions (default)"; V 1 1 "rainbow mode with smooth color transitions"; V 2 2 "multi color mode with smooth color transitions"; V 3 3 "random mode with smooth color transitions"; V 64 64 "single color mode with direct color transitions"; V 65 65 "rainbow color mode with direct color transitions"; V 66 66 "multi color mode with direct color transitions"; V 67 67 "random color mode with direct color transitions"; V 128 128 "single color mode with fade out/fade in transitions"; V 129 129 "rainbow color mode with fade out/fade in transitions"; V 130 130 "multi color mode with fade out/fade in transitions"; V 131 131 "random color mode with fade out/fade in transitions"]; P 38 "Color index configuration for multi mode (1,2)" 4 [V 0 136 ""]; P 38 "Color index configuration for multi mode (3,4)" 4 [V 0 136 ""]; P 38 "Color index configuration for multi mode (5.6)" 4 [V 0 136 ""]; P 38 "Color index configuration for multi mode (7,8)" 4 [V 0 136 ""]; P 80 "Enable notifications" 1 [V 0 0 "Disable"; V 1 1 "Hail"; V 2 2 "Basic"]; P 252 "Lock configuration" 1 [V 0 0 "disabled"; V 1 1 "enabled"]].
Definition dpar82 : list gparam := [P 3 "Current Overload Protection" 1 [V 0 0 "Disabled"; V 1 1 "Enabled"]; P 20 "Initial Load State" 1 [V 0 0 "Last Status"; V 1 1 "Always On"; V 2 2 "Always Off"]; P 33 "RGB LED Color Test" 4 [V 0 2147483647 ""]; P 80 "Notification on Status Change" 1 [V 0 0 "None"; V 1 1 "Hail"; V 2 2 "Basic CC Report"]; P 81 "LED Indicator Mode" 1 [V 0 0 "Energy Mode (Load State)"; V 1 1 "Momentary Mode"; V 2 2 "Night Light Mode"]; P 83 "LED Color for Night Light" 3 [V 0 16777215 ""]; P 84 "LED Brightness" 3 [V 0 6579300 ""]; P 90 "Enable Report triggered by minimal change of value" 1 [V 0 0 "Disabled"; V 1 1 "Enabled"]; P 91 "Minimum Change to send Report (Watt)" 2 [V 0 60000 ""]; P 92 "Minimum Change to send Report (%)" 1 [V 0 100 ""]; P 100 "Reset Report Assignments for All Groups" 1 [V 0 0 "Do Nothing"; V 1 1 "Reset to Defaults"]; P 101 "Reports for Group 1" 4 [V 0 2147483647 ""]; P 102 "Reports for Group 2" 4 [V 0 2147483647 ""]; P 103 "Reports for Group 3" 4 [V 0 2147483647 ""]; P 110 "Reset Report Time Intervals for All Groups" 1 [V 0 0 "Do Nothing"; V 1 1 "Reset to Defaults"]; P 111 "Report Group 1 Time Interval" 4 [V 0 2147483647 ""]; P 112 "Report Group 2 Time Interval" 4 [V 0 2147483647 ""]; P 113 "Report Group 3 Time Interval" 4 [V 0 2147483647 ""]; P 200 "Partner ID" 1 [V 0 0 "Aeon Labs Standard Product"; V 1 1 "Others"]; P 252 "Configuration Lock" 1 [V 0 0 "Disabled"; V 1 1 "Enabled"]; P 254 "Device Tag" 2 [V 0 65535 ""]; P 255 "Reset to Factory Default Settings" 1 [V 0 0 "Reset"]].
Definition dpar83 : list gparam := [P 3 "Current Overload Protection" 1 [V 0 0 "Disabled"; V 1 1 "Enabled"]; P 20 "Initial Load State" 1 [V 0 0 "Last Status"; V 1 1 "Always On"; V 2 2 "Always Off"]; P 33 "RGB LED Color Test" 4 [V 0 2147483647 ""]; P 80 "Notification on Status Change" 1 [V 0 0 "None"; V 1 1 "Hail"; V 2 2 "Basic CC Report"]; P 81 "LED Indicator Mode" 1 [V 0 0 "Energy Mode (Load State)"; V 1 1 "Momentary Mode"; V 2 2 "Night Light Mode"]; P 83 "LED Color for Night Light" 3 [V 0 16777215 ""]; P 84 "LED Brightness" 3 [V 0 6579300 ""]; P 90 "Enable Report triggered by minimal change of value" 1 [V 0 0 "Disabled"; V 1 1 "Enabled"]; P 91 "Minimum Change to send Report (Watt)" 2 [V 0 60000 ""]; P 92 "Minimum Change to send Report (%)" 1 [V 0 100 ""]; P 100 "Reset Report Assignments for All Groups" 1 [V 0 0 "Do Nothing"; V 1 1 "Reset to Defaults"]; P 101 "Reports for Group 1" 4 [V 0 2147483647 ""]; P 102 "Reports for Group 2" 4 [V 0 2147483647 ""]; P 103 "Reports for Group 3" 4 [V 0 2147483647 ""]; P 110 "Reset Report Time Intervals for All Groups" 1 [V 0 0 "Do Nothing"; V 1 1 "Reset to Defaults"]; P 111 "Report Group 1 Time Interval" 4 [V 0 2147483647 ""]; P 112 "Report Group 2 Time Interval" 4 [V 0 2147483647 ""]; P 113 "Report Group 3 Time Interval" 4 [V 0 2147483647 ""]; P 200 "Partner ID" 1 [V 0 0 "Aeon Labs Standard Product"; V 1 1 "Others"]; P 252 "Configuration Lock" 1 [V 0 0 "Disabled"; V 1 1 "Enabled"]; P 254 "Device Tag" 2 [V 0 65535 ""]; P 255 "Reset to Factory Default Settings" 1 [V 0 0 "Reset"]].
Definition dpar84 : list gparam := [P 3 "Current Overload Protection" 1 [V 0 0 "Disabled"; V 1 1 "Enabled"]; P 20 "Initial Load State" 1 [V 0 0 "Last Status"; V 1 1 "Always On"; V 2 2 "Always Off"]; P 33 "RGB LED Color Test" 4 [V 0 2147483647 ""]; P 80 "Notification on Status Change" 1 [V 0 0 "None"; V 1 1 "Hail"; V 2 2 "Basic CC Report"]; P 81 "LED Indicator Mode" 1 [V 0 0 "Energy Mode (Load State)"; V 1 1 "Momentary Mode"; V 2 2 "Night Light Mode"]; P 83 "LED Color for Night Light" 3 [V 0 16777215 ""]; P 84 "LED Brightness" 3 [V 0 6579300 ""]; P 90 "Enable Report triggered by minimal change of value" 1 [V 0 0 "Disabled"; V 1 1 "Enabled"]; P 91 "Minimum Change to send Report (Watt)" 2 [V 0 60000 ""]; P 92 "Minimum Change to send Report (%)" 1 [V 0 100 ""]; P 100 "Reset Report Assignments for All Groups" 1 [V 0 0 "Do Nothing"; V 1 1 "Reset to Defaults"]; P 101 "Reports for Group 1" 4 [V 0 2147483647 ""]; P 102 "Reports for Group 2" 4 [V 0 2147483647 ""]; P 103 "Reports for Group 3" 4 [V 0 2147483647 ""]; P 110 "Reset Report Time Intervals for All Groups" 1 [V 0 0 "Do Nothing"; V 1 1 "Reset to Defaults"]; P 111 "Report Group 1 Time Interval" 4 [V 0 2147483647 ""]; P 112 "Report Group 2 Time Interval" 4 [V 0 2147483647 ""]; P 113 "Report Group 3 Time Interval" 4 [V 0 2147483647 ""]; P 200 "Partner ID" 1 [V 0 0 "Aeon Labs Standard Product"; V 1 1 "Others"]; P 252 "Configuration Lock" 1 [V 0 0 "Disabled"; V 1 1 "Enabled"]; P 254 "Device Tag" 2 [V 0 65535 ""]; P 255 "Reset to Factory Default Settings" 1 [V 0 0 "Reset"]].
Definition dpar85 : list gparam := [P 3 "Current Overload Protection" 1 [V 0 0 "Disabled"; V 1 1 "Enabled"]; P 20 "Initial Load State" 1 [V 0 0 "Last Status"; V 1 1 "Always On"; V 2 2 "Always Off"]; P 33 "RGB LED Color Test" 4 [V 0 2147483647 ""]; P 80 "Notification on Status Change" 1 [V 0 0 "None"; V 1 1 "Hail"; V 2 2 "Basic CC Report"]; P 81 "LED Indicator Mode" 1 [V 0 0 "Energy Mode (Load State)"; V 1 1 "Momentary Mode"; V 2 2 "Night Light Mode"]; P 83 "LED Color for Night Light" 3 [V 0 16777215 ""]; P 84 "LED Brightness" 3 [V 0 6579300 ""]; P 90 "Enable Report triggered by minimal change of value" 1 [V 0 0 "Disabled"; V 1 1 "Enabled"]; P 91 "Minimum Change to send Report (Watt)" 2 [V 0 60000 ""]; P 92 "Minimum Change to send Report (%)" 1 [V 0 100 ""]; P 100 "Reset Report Assignments for All Groups" 1 [V 0 0 "Do Nothing"; V 1 1 "Reset to Defaults"]; P 101 "Reports for Group 1" 4 [V 0 2147483647 ""]; P 102 "Reports for Group 2" 4 [V 0 2147483647 ""]; P 103 "Reports for Group 3" 4 [V 0 2147483647 ""]; P 110 "Reset Report Time Intervals for All Groups" 1 [V 0 0 "Do Nothing"; V 1 1 "Reset to Defaults"]; P 111 "Report Group 1 Time Interval" 4 [V 0 2147483647 ""]; P 112 "Report Group 2 Time Interval" 4 [V 0 2147483647 ""]; P 113 "Report Group 3 Time Interval" 4 [V 0 2147483647 ""]; P 200 "Partner ID" 1 [V 0 0 "Aeon Labs Standard Product"; V 1 1 "Others"]; P 252 "Configuration Lock" 1 [V 0 0 "Disabled"; V 1 1 "Enabled"]; P 254 "Device Tag" 2 [V 0 65535 ""]; P 255 "Reset to Factory Default Settings" 1 [V 0 0 "Reset"]].
Definition dpar86 : list gparam := [P 2 "Stay Awake in Battery Mode			" 1 [V 0 0 "Disable"; V 1 1 "enable"]; P 3 "Motion Sensor reset timeout" 2 [V 5 3600 ""]; P 4 "Motion sensor sensitivity" 1 [V 0 0 "Disable"; V 1 1 "Enable, sensitivity level 1 (minimum)"; V 2 2 "Enable, sensitivity level 2"; V 3 3 "Enable, sensitivity level 3"; V 4 4 "Enable, sensitivity level 4"; V 5 5 "Enable, sensitivity level 5 (maximum)"]; P 5 "Motion Sensor Triggered Command" 1 [V 1 1 "Send Basic Set CC"; V 2 2 "Send Sensor Binary Report CC"]; P 39 "Low Battery Report" 1 [V 10 50 ""]; P 40 "Selective Reporting" 1 [V 0 0 "Disable"; V 1 1 "Enable"]; P 41 "Temperature Threshold" 2 [V 0 100 ""]; P 42 "Humidity Threshold" 1 [V 0 100 ""]; P 43 "Luminance Threshold" 2 [V 0 1000 ""]; P 44 "Battery Threshold" 1 [V 0 100 ""]; P 45 "Ultraviolet Threshold" 1 [V 0 100 ""]; P 46 "Send Alarm Report if low temperature" 1 [V 0 0 "Disable"; V 1 1 "Enable"]; P 100 "Set parameters 101-103 to default.			" 1 [V 0 1 ""]; P 101 "Group 1 Periodic Reports" 4 [V 0 65535 ""]; P 102 "Group 2 Periodic Reports			" 4 [V 0 65535 ""]; P 103 "Group 3 Periodic Reports			" 4 [V 0 65535 ""]; P 110 "Set parameters 111-113 to default.			" 1 [V 0 1 ""]; P 111 "Group 1 Report Interval" 4 [V 5 2678400 ""]; P 112 "Group 2 Report Interval" 4 [V 5 2678400 ""]; P 113 "Group 3 Report Interval" 4 [V 5 2678400 ""]; P 201 "Temperature Calibration" 1 [V (-100) 100 ""]; P 202 "Humidity Sensor Calibration" 1 [V (-50) 50 ""]; P 203 "Luminance Sensor Calibration" 2 [V (-1000) 1000 ""]; P 204 "Ultraviolet Sensor Calibration" 1 [V (-10) 10 ""]; P 252 "Lock Configuration Parameters			" 1 [V 0 0 "Disable"; V 1 1 "Enable"]; P 255 "Reset to default factory settings" 4 [V 1 1 "Resets all configuration parameters to defaults"; V 1431655765 1431655765 "Reset to default factory settings and be excluded"]].
Definition dpar87 : list gparam := [P 2 "Stay Awake in Battery Mode			" 1 [V 0 0 "Disable"; V 1 1 "enable"]; P 3 "Motion Sensor reset timeout" 2 [V 5 3600 ""]; P 4 "Motion sensor sensitivity" 1 [V 0 0 "Disable"; V 1 1 "Enable, sensitivity level 1 (minimum)"; V 2 2 "Enable, sensitivity level 2"; V 3 3 "Enable, sensitivity level 3"; V 4 4 "Enable, sensitivity level 4"; V 5 5 "Enable, sensitivity level 5 (maximum)"]; P 5 "Motion Sensor Triggered Command" 1 [V 1 1 "Send Basic Set CC"; V 2 2 "Send Sensor Binary Report CC"]; P 39 "Low Battery Report" 1 [V 10 50 ""]; P 40 "Selective Reporting" 1 [V 0 0 "Disable"; V 1 1 "Enable"]; P 41 "Temperature Threshold" 2 [V 0 100 ""]; P 42 "Humidity Threshold" 1 [V 0 100 ""]; P 43 "Luminance Threshold" 2 [V 0 1000 ""]; P 44 "Battery Threshold" 1 [V 0 100 ""]; P 45 "Ultraviolet Threshold" 1 [V 0 100 ""]; P 46 "Send Alarm Report if low temperature" 1 [V 0 0 "Disable"; V 1 1 "Enable"]; P 100 "Set parameters 101-103 to default.			" 1 [V 0 1 ""]; P 101 "Group 1 Periodic Reports" 4 [V 0 65535 ""]; P 102 "Group 2 Periodic Reports			" 4 [V 0 65535 ""]; P 103 "Group 3 Periodic Reports			" 4 [V 0 65535 ""]; P 110 "Set parameters 111-113 to default.			" 1 [V 0 1 ""]; P 111 "Group 1 Report Interval" 4 [V 5 2678400 ""]; P 112 "Group 2 Report Interval" 4 [V 5 2678400 ""]; P 113 "Group 3 Report Interval" 4 [V 5 2678400 ""]; P 201 "Temperature Calibration" 1 [V (-100) 100 ""]; P 202 "Humidity Sensor Calibration" 1 [V (-50) 50 ""]; P 203 "Luminance Sensor Calibration" 2 [V (-1000) 1000 ""]; P 204 "Ultraviolet Sensor Calibration" 1 [V (-10) 10 ""]; P 252 "Lock Configuration Parameters			" 1 [V 0 0 "Disable"; V 1 1 "Enable"]; P 255 "Reset to default factory settings" 4 [V 1 1 "Resets all configuration parameters to defaults"; V 1431655765 1431655765 "Reset to default factory settings and be excluded"]].
Definition dpar88 : list gparam := [P 2 "Stay Awake in Battery Mode			" 1 [V 0 0 "Disable"; V 1 1 "enable"]; P 3 "Motion Sensor reset timeout" 2 [V 5 3600 ""]; P 4 "Motion sensor sensitivity" 1 [V 0 0 "Disable"; V 1 1 "Enable, sensitivity level 1 (minimum)"; V 2 2 "Enable, sensitivity level 2"; V 3 3 "Enable, sensitivity level 3"; V 4 4 "Enable, sensitivity level 4"; V 5 5 "Enable, sensitivity level 5 (maximum)"]; P 5 "Motion Sensor Triggered Command" 1 [V 1 1 "Send Basic Set CC"; V 2 2 "Send Sensor Binary Report CC"]; P 39 "Low Battery Report" 1 [V 10 50 ""]; P 40 "Selective Reporting" 1 [V 0 0 "Disable"; V 1 1 "Enable"]; P 41 "Temperature Threshold" 2 [V 0 100 ""]; P 42 "Humidity Threshold" 1 [V 0 100 ""]; P 43 "Luminance Threshold" 2 [V 0 1000 ""]; P 44 "Battery Threshold" 1 [V 0 100 ""]; P 45 "Ultraviolet Threshold" 1 [V 0 100 ""]; P 46 "Send Alarm Report if low temperature" 1 [V 0 0 "Disable"; V 1 1 "Enable"]; P 100 "Set parameters 101-103 to default.			" 1 [V 0 1 ""]; P 101 "Group 1 Periodic Reports" 4 [V 0 65535 ""]; P 102 "Group 2 Periodic Reports			" 4 [V 0 65535 ""]; P 103 "Group 3 Periodic Reports			" 4 [V 0 65535 ""]; P 110 "Set parameters 111-113 to default.			" 1 [V 0 1 ""]; P 111 "Group 1 Report Interval" 4 [V 5 2678400 ""]; P 112 "Group 2 Report Interval" 4 [V 5 2678400 ""]; P 113 "Group 3 Report Interval" 4 [V 5 2678400 ""]; P 201 "Temperature Calibration" 1 [V (-100) 100 ""]; P 202 "Humidity Sensor Calibration" 1 [V (-50) 50 ""]; P 203 "Luminance Sensor Calibration" 2 [V (-1000) 1000 ""]; P 204 "Ultraviolet Sensor Calibration" 1 [V (-10) 10 ""]; P 252 "Lock Configuration Parameters			" 1 [V 0 0 "Disable"; V 1 1 "Enable"]; P 255 "Reset to default factory settings" 4 [V 1 1 "Resets all configuration parameters to defaults"; V 1431655765 1431655765 "Reset to default factory settings and be excluded"]].
Definition dpar89 : list gparam := [P 3 "Current Overload Protection" 1 [V 0 0 "Disable"; V 1 1 "(Default) Enable"]; P 4 "Overheat protection" 1 [V 0 0 "(Default) Disable"; V 1 1 "Enable"]; P 20 "Configure the output status after re-power on it" 1 [V 0 0 "(Default) Last status"; V 1 1 "Always on"; V 2 2 "Always off"]; P 80 "Group 1 notificaiton" 1 [V 0 0 "(Default) Send Nothing"; V 1 1 "Send Hail CC"; V 2 2 "Send Basic CC report"; V 3 3 "Send Multilevel Switch report"; V 4 4 "Send Hail CC when using the manual switch"]; P 81 "Group 3 notificaiton" 1 [V 0 0 "Send Nothing"; V 1 1 "(Default) Send Basic Set CC"]; P 82 "Group 4 notificaiton" 1 [V 0 0 "Send Nothing"; V 1 1 "(Default) Send Basic Set CC"]; P 85 "Set appointment 1" 4 [V 0 16843197 ""]; P 86 "Set appointment 2" 4 [V 0 16843197 ""]; P 90 "(En/dis)able 91 and 92" 1 [V 0 0 "(Default) Disable"; V 1 1 "Enable"]; P 91 "Set the threshold value of wattage" 2 [V 0 60000 ""]; P 92 "Set the threshold value of wattage" 1 [V 0 100 ""]; P 100 "Reset 101-103 to default" 1 [V 0 0 "Reset the parameter 101-103"]; P 102 "Set group 2 reports" 1 [V 0 0 ""]; P 103 "To set which reports need to be sent in Report group 3" 1 [V 0 15 ""]; P 110 "Reset 111-113 to default" 1 [V 0 0 "Reset the parameter 111-113"]; P 111 "Automatic report interval group 1" 4 [V 1 2147483647 ""]; P 112 "Automatic report interval group 2" 4 [V 1 2147483647 ""]; P 113 "Automatic report interval group 3" 4 [V 0 2147483647 ""]; P 120 "Configure the external switch mode for S1" 1 [V 0 0 "(Default) Enter automatic identification mode"; V 1 1 "Momentary push button mode"; V 2 2 "3 way switch mode"; V 3 3 "2-state switch mode"]; P 121 "Configure the external switch mode for S2" 1 [V 0 0 "(Default) Enter automatic identification mode"; V 1 1 "Momentary push button mode"; V 2 2 "3 way switch mode"; V 3 3 "2-state switch mode"]; P 122 "Get the state of touch panel port" 1 [V 0 0 "(Default) the touch panel is not connected."; V 5 5 "the touch panel is connected"]; P 123 "Set the control destination for external switch S1" 1 [V 1 1 "control the output loads of itself"; V 2 2 "control the other nodes"; V 3 3 "(Default) control the output loads of itself and other nodes"]; P 124 "Set the control destination for external switch S2" 1 [V 1 1 "control the output loads of itself"; V 2 2 "control the other nodes"; V 3 3 "(Default) control the output loads of itself and other nodes"]; P 125 "Set the default dimming rate" 1 [V 1 255 ""]; P 128 "Get the current working mode" 1 [V 0 0 "(Default) Unknown working mode"; V 1 1 "2-wire mode"; V 2 2 "3-wire mode"]; P 129 "Set the dimming principle" 1 [V 0 0 "Trailing edge mode"; V 1 1 "(Default) Leading edge mode"]; P 130 "To get what type of load the Dimmer is connected to" 1 [V 0 0 "(Default) Unknown load"; V 1 1 "Resistive load"; V 2 2 "Capacitive load"; V 3 3 "Inductive load"]; P 131 "Set the min brightness level that the load can reach to" 1 [V 0 99 ""]; P 132 "Set the max brightness level that the load can reach to" 1 [V 0 99 ""]; P 249 "Set the recognition way of load" 1 [V 0 0 "Never recognize the load when power on"; V 1 1 "Only recognize once when first power on"; V 2 2 "(Default) Recognize the load once power on"]; P 252 "Lock/unlock configuration parameters" 1 [V 0 0 "(Default) Unlock"; V 1 1 "Lock"]; P 255 "Reset the Nano Dimmer" 4 [V 0 0 "(Default) factory default"; V 1431655765 1431655765 "factory default and remove"]].
Definition dpar90 : list gparam := [P 3 "Current Overload Protection" 1 [V 0 0 "Disable"; V 1 1 "(Default) Enable"]; P 4 "Overheat protection" 1 [V 0 0 "(Default) Disable"; V 1 1 "Enable"]; P 20 "Configure the output status after re-power on it" 1 [V 0 0 "(Default) Last status"; V 1 1 "Always on"; V 2 2 "Always off"]; P 80 "Group 1 notificaiton" 1 [V 0 0 "(Default) Send Nothing"; V 1 1 "Send Hail CC"; V 2 2 "Send Basic CC report"; V 3 3 "Send Multilevel Switch report"; V 4 4 "Send Hail CC when using the manual switch"]; P 81 "Group 3 notificaiton" 1 [V 0 0 "Send Nothing"; V 1 1 "(Default) Send Basic Set CC"]; P 82 "Group 4 notificaiton" 1 [V 0 0 "Send Nothing"; V 1 1 "(Default) Send Basic Set CC"]; P 85 "Set appointment 1" 4 [V 0 16843197 ""]; P 86 "Set appointment 2" 4 [V 0 16843197 ""]; P 90 "(En/dis)able 91 and 92" 1 [V 0 0 "(Default) Disable"; V 1 1 "Enable"]; P 91 "Set the threshold value of wattage" 2 [V 0 60000 ""]; P 92 "Set the threshold value of wattage" 1 [V 0 100 ""]; P 100 "Reset 101-103 to default" 1 [V 0 0 "Reset the parameter 101-103"]; P 102 "Set group 2 reports" 1 [V 0 0 ""]; P 103 "To set which reports need to be sent in Report group 3" 1 [V 0 15 ""]; P 110 "Reset 111-113 to default" 1 [V 0 0 "Reset the parameter 111-113"]; P 111 "Automatic report interval group 1" 4 [V 1 2147483647 ""]; P 112 "Automatic report interval group 2" 4 [V 1 2147483647 ""]; P 113 "Automatic report interval group 3" 4 [V 0 2147483647 ""]; P 120 "Configure the external switch mode for S1" 1 [V 0 0 "(Default) Enter automatic identification mode"; V 1 1 "Momentary push button mode"; V 2 2 "3 way switch mode"; V 3 3 "2-state switch mode"]; P 121 "Configure the external switch mode for S2" 1 [V 0 0 "(Default) Enter automatic identification mode"; V 1 1 "Momentary push button mode"; V 2 2 "3 way switch mode"; V 3 3 "2-state switch mode"]; P 122 "Get the state of touch panel port" 1 [V 0 0 "(Default) the touch panel is not connected."; V 5 5 "the touch panel is connected"]; P 123 "Set the control destination for external switch S1" 1 [V 1 1 "control the output loads of itself"; V 2 2 "control the other nodes"; V 3 3 "(Default) control the output loads of itself and other nodes"]; P 124 "Set the control destination for external switch S2" 1 [V 1 1 "control the output loads of itself"; V 2 2 "control the other nodes"; V 3 3 "(Default) control the output loads of itself and other nodes"]; P 125 "Set the default dimming rate" 1 [V 1 255 ""]; P 128 "Get the current working mode" 1 [V 0 0 "(Default) Unknown working mode"; V 1 1 "2-wire mode"; V 2 2 "3-wire mode"]; P 129 "Set the dimming principle" 1 [V 0 0 "Trailing edge mode"; V 1 1 "(Default) Leading edge mode"]; P 130 "To get what type of load the Dimmer is connected to" 1 [V 0 0 "(Default) Unknown load"; V 1 1 "Resistive load"; V 2 2 "Capacitive load"; V 3 3 "Inductive load"]; P 131 "Set the min brightness level that the load can reach to" 1 [V 0 99 ""]; P 132 "Set the max brightness level that the load can reach to" 1 [V 0 99 ""]; P 249 "Set the recognition way of load" 1 [V 0 0 "Never recognize the load when power on"; V 1 1 "Only recognize once when first power on"; V 2 2 "(Default) Recognize the load once power on"]; P 252 "Lock/unlock configuration parameters" 1 [V 0 0 "(Default) Unlock"; V 1 1 "Lock"]; P 255 "Reset the Nano Dimmer" 4 [V 0 0 "(Default) factory default"; V 1431655765 1431655765 "factory default and remove"]].
Definition dpar91 : list gparam := [P 1 "Value that will be sent on open/close events" 1 [V 0 0 "On for opened, Off for closed"; V 1 1 "	Off for opened, On for closed"]; P 39 "Low battery threshold (10% to 50%)" 1 [V 10 50 ""]; P 101 "Low battery voltage check" 1 [V 0 0 "Disable"; V 1 1 "Enable"]; P 111 "Low battery voltage check time" 4 [V 240 134217727 ""]; P 121 "Reporting mode on open/close event" 1 [V 0 0 "Send nothing"; V 1 1 "Send Basic Set CC"; V 2 2 "Send Sensor Binary Report CC"; V 3 3 "Send Basic Set CC and Sensor Binary Report CC"]; P 252 "Lock/Unlock all configuration parameters" 1 [V 0 0 "Unlock"; V 1 1 "Lock"]; P 255 "Reset sensor to factory default and remove from network" 4 [V 0 2147483647 ""]].
Definition dpar92 : list gparam := [P 1 "Value that will be sent on open/close events" 1 [V 0 0 "On for opened, Off for closed"; V 1 1 "	Off for opened, On for closed"]; P 39 "Low battery threshold (10% to 50%)" 1 [V 10 50 ""]; P 101 "Low battery voltage check" 1 [V 0 0 "Disable"; V 1 1 "Enable"]; P 111 "Low battery voltage check time" 4 [V 240 134217727 ""]; P 121 "Reporting mode on open/close event" 1 [V 0 0 "Send nothing"; V 1 1 "Send Basic Set CC"; V 2 2 "Send Sensor Binary Report CC"; V 3 3 "Send Basic Set CC and Sensor Binary Report CC"]; P 252 "Lock/Unlock all configuration parameters" 1 [V 0 0 "Unlock"; V 1 1 "Lock"]; P 255 "Reset sensor to factory default and remove from network" 4 [V 0 2147483647 ""]].
Definition dpar93 : list gparam := [P 1 "Value that will be sent on open/close events" 1 [V 0 0 "On for opened, Off for closed"; V 1 1 "	Off for opened, On for closed"]; P 39 "Low battery threshold (10% to 50%)" 1 [V 10 50 ""]; P 101 "Low battery voltage check" 1 [V 0 0 "Disable"; V 1 1 "Enable"]; P 111 "Low battery voltage check time" 4 [V 240 134217727 ""]; P 121 "Reporting mode on open/close event" 1 [V 0 0 "Send nothing"; V 1 1 "Send Basic Set CC"; V 2 2 "Send Sensor Binary Report CC"; V 3 3 "Send Basic Set CC and Sensor Binary Report CC"]; P 252 "Lock/Unlock all configuration parameters" 1 [V 0 0 "Unlock"; V 1 1 "Lock"]; P 255 "Reset sensor to factory default and remove from network" 4 [V 0 2147483647 ""]].
Definition dpar94 : list gparam := [P 1 "Value that will be sent on open/close events" 1 [V 0 0 "On for opened, Off for closed"; V 1 1 "	Off for opened, On for closed"]; P 39 "Low battery threshold (10% to 50%)" 1 [V 10 50 ""]; P 101 "Low battery voltage check" 1 [V 0 0 "Disable"; V 1 1 "Enable"]; P 111 "Low battery voltage check time" 4 [V 240 134217727 ""]; P 121 "Reporting mode on open/close event" 1 [V 0 0 "Send nothing"; V 1 1 "Send Basic Set CC"; V 2 2 "Send Sensor Binary Report CC"; V 3 3 "Send Basic Set CC and Sensor Binary Report CC"]; P 252 "Lock/Unlock all configuration parameters" 1 [V 0 0 "Unlock"; V 1 1 "Lock"]; P 255 "Reset sensor to factory default and remove from network" 4 [V 0 2147483647 ""]].
Definition dpar95 : list gparam := [P 33 "RGB value" 3 [V 1 1 "Reserved"; V 2 2 "Red value"; V 3 3 "Green value"; V 4 4 "Blue value"]; P 82 "Default status of the LED" 1 [V 0 0 "The green LED remains On for 2 seconds"; V 1 1 "Off"]; P 200 "Partner ID" 1 [V 0 0 "Aeon Labs Standard Product"; V 1 1 "others"]; P 252 "Enable/disable the Configuration to be locked" 1 [V 0 0 "disable"; V 1 1 "enable"]; P 254 "Device Tag." 2 [V 0 0 ""]; P 255 "Reset to factory default" 4 [V 0 0 "DELETE ME"; V 1431655765 1431655765 "Reset to factory default"]; P 255 "Reset configuration" 1 [V 0 0 "Reset configuration"]].
Definition dpar96 : list gparam := [P 1 "Touch sound" 1 [V 0 0 "Disable"; V 1 1 "Enable"]; P 2 "Touch vibration" 1 [V 0 0 "Disable"; V 1 1 "Enable"]; P 3 "Button slide" 1 [V 0 0 "Disable"; V 1 1 "Enable"]; P 4 "Notification report" 1 [V 1 1 "Central scene"; V 3 3 "Central scene and config"]; P 39 "Low battery value" 1 [V 0 50 ""]; P 255 "Reset the WallMote Quad" 4 [V 0 0 "Reset to factory default"; V 1431655765 1431655765 "Reset and remove"]].
Definition dpar97 : list gparam := [P 1 "Touch sound" 1 [V 0 0 "Disable"; V 1 1 "Enable"]; P 2 "Touch vibration" 1 [V 0 0 "Disable"; V 1 1 "Enable"]; P 3 "Button slide" 1 [V 0 0 "Disable"; V 1 1 "Enable"]; P 4 "Notification report" 1 [V 1 1 "Central scene"; V 3 3 "Central scene and config"]; P 39 "Low battery value" 1 [V 0 50 ""]; P 255 "Reset the WallMote Quad" 4 [V 0 0 "Reset to factory default"; V 1431655765 1431655765 "Reset and remove"]].
Definition dpar98 : list gparam := [P 1 "Touch sound" 1 [V 0 0 "Disable"; V 1 1 "Enable"]; P 2 "Touch vibration" 1 [V 0 0 "Disable"; V 1 1 "Enable"]; P 3 "Button slide" 1 [V 0 0 "Disable"; V 1 1 "Enable"]; P 4 "Notification report" 1 [V 1 1 "Central scene"; V 3 3 "Central scene and config"]; P 39 "Low battery value" 1 [V 0 50 ""]; P 255 "Reset the WallMote Quad" 4 [V 0 0 "Reset to factory default"; V 1431655765 1431655765 "Reset and remove"]].
Definition dpar99 : list gparam := [].
Definition dpar100 : list gparam := [P 1 "Set to Default" 1 [V 1 255 ""]; P 2 "Destination routine on/off" 1 [V 0 25 ""]; P 3 "Desitnation routine succes time" 1 [V 0 0 ""]; P 4 "Destination routine failed time" 1 [V 0 0 ""]; P 7 "Select index sound/light mode" 1 [V 0 6 ""]; P 8 "power offline sound/light mode" 1 [V 0 6 ""]; P 10 "sound/light index 1" 18 [V 0 0 ""]; P 28 "sound/light index 2" 18 [V 0 0 ""]; P 46 "sound/light index 3" 18 [V 0 0 ""]; P 64 "sound/light index 4" 18 [V 0 0 ""]; P 82 "sound/light index 5" 18 [V 0 0 ""]; P 100 "sound/light index 6" 18 [V 0 0 ""]].
Definition dpar101 : list gparam := [P 1 "Reset to factory settings" 1 [V 0 255 ""]; P 2 "The way how the button reacts when press/released" 1 [V 0 0 "Toggle light when button is pressed, no action when button is released"; V 1 1 "Toggle light when button is released, Start dimming when button presse"; V 2 2 "Toggle light when button is pressed and when button is Released, start"]; P 3 "The way the Built-in Dimmer reacts when light is turned on/off with button" 1 [V 0 0 "Switch own light on and send a Z-Wave message to all associated nodes "; V 1 1 "Don.t switch own light on but only send a Z-Wave message to associated"]; P 4 "Enable dimming" 1 [V 0 0 "Disable"; V 1 1 "Enable"]; P 6 "Maximum load" 2 [V 0 65535 ""]; P 7 "Dimming speed" 1 [V 0 255 ""]; P 8 "Fading up speed" 1 [V 0 255 ""]; P 9 "Toggle time" 1 [V 0 255 ""]; P 11 "Auto meter report: percentage" 1 [V 0 255 ""]; P 12 "Auto meter report: watt" 1 [V 0 255 ""]; P 13 "Auto meter report: time" 1 [V 0 255 ""]; P 14 "Last known status" 1 [V 0 255 ""]; P 15 "Fading down speed" 1 [V 0 255 ""]].
Definition dpar102 : list gparam := [P 1 "Reset to factory settings" 1 [V 0 255 ""]; P 2 "External contact behavior" 1 [V 0 0 "Send alarm"; V 1 1 "Send basic frame"]; P 5 "Operating mode." 1 [V 1 1 "Normal"; V 2 2 "Mode 1 report"; V 3 3 "Always-on"]; P 6 "Temperature offset" 2 [V (-32768) 32767 ""]].
Definition dpar103 : list gparam := [P 1 "Reset to factory settings" 1 [V 0 255 ""]; P 2 "External contact behavior" 1 [V 0 0 "Send alarm"; V 1 1 "Send basic frame"]; P 5 "Operating mode." 1 [V 1 1 "Normal"; V 2 2 "Mode 1 report"; V 3 3 "Always-on"]; P 6 "Temperature offset" 2 [V (-32768) 32767 ""]].
Definition dpar104 : list gparam := [P 1 "Set to Default" 1 [V 0 255 ""]; P 2 "Amount of decimals" 1 [V 0 3 ""]; P 3 "Power Limit " 2 [V 0 4500 ""]; P 4 "Start up with last known socket status" 1 [V 0 255 ""]; P 6 "Auto report %" 1 [V 10 100 ""]; P 7 "Auto report Watt" 1 [V 5 255 ""]; P 8 "Auto report time" 1 [V 10 255 ""]; P 9 "Relais delay time" 1 [V 0 255 ""]; P 10 "Led indicator" 1 [V 0 2 ""]].
Definition dpar105 : list gparam := [P 1 "Set to default" 1 [V 255 255 "Reset"]; P 2 "Data request interval" 1 [V 1 255 ""]; P 3 "T room update difference" 1 [V 1 255 ""]; P 4 "T setpoint update difference" 1 [V 1 255 ""]; P 5 "Unsolicited CRC" 1 [V 0 0 "Off"; V 255 255 "On"]; P 6 "Type of 'special' thermostat" 1 [V 0 0 "No special"; V 1 1 "Remeha Celcia 20"; V 2 2 "Honeywell (rounded temperatures)"]; P 7 "Status auto report" 1 [V 0 0 "Disable boiler/thermostat status messages auto report"; V 255 255 "Enable boiler/thermostat status messages auto report"]; P 9 "Enable/Disable thermostat schedule" 1 [V 0 0 "Disable thermostat schedule"; V 255 255 "Enable thermostat schedule"]; P 11 "Readout manual setpoint thermostat" 1 [V 0 0 "Readout OFF"; V 255 255 "Readout ON"]].
Definition dpar106 : list gparam := [P 1 "Reset to factory settings" 1 [V 0 255 ""]; P 2 "Mode timeout" 2 [V 0 0 ""]; P 3 "Switch off time" 2 [V 0 0 ""]; P 4 "sensitivity" 1 [V 0 127 ""]; P 5 "The mode" 1 [V 1 1 "Mode 1: no detection possible. Battery save mode."; V 2 2 "Mode 2: normal operation mode: send on after detection and off after g"; V 3 3 "Mode 3: Z-Wave chip is always on to request e.g. version or manufactur"]; P 6 "The temperature offset" 2 [V 0 0 ""]; P 7 "Light table 100 %" 2 [V 0 0 ""]; P 8 "Light table 90 %" 2 [V 0 0 ""]; P 9 "Light table 80 %" 2 [V 0 0 ""]; P 10 "Light table 70 %" 2 [V 0 0 ""]; P 11 "Light table 60 %" 2 [V 0 0 ""]; P 12 "Light table 50 %" 2 [V 0 0 ""]; P 13 "Light table 40 %" 2 [V 0 0 ""]; P 14 "Light table 30 %" 2 [V 0 0 ""]; P 15 "Light table 20 %" 2 [V 0 0 ""]; P 16 "Light table 10 %" 2 [V 0 0 ""]].
Definition dpar107 : list gparam := [P 1 "Reset to factory settings" 1 [V 0 255 ""]; P 2 "Mode timeout" 2 [V 0 0 ""]; P 3 "Switch off time" 2 [V 0 0 ""]; P 4 "sensitivity" 1 [V 0 127 ""]; P 5 "The mode" 1 [V 1 1 "Mode 1: no detection possible. Battery save mode."; V 2 2 "Mode 2: normal operation mode: send on after detection and off after g"; V 3 3 "Mode 3: Z-Wave chip is always on to request e.g. version or manufactur"]; P 6 "The temperature offset" 2 [V 0 0 ""]; P 7 "Light table 100 %" 2 [V 0 0 ""]; P 8 "Light table 90 %" 2 [V 0 0 ""]; P 9 "Light table 80 %" 2 [V 0 0 ""]; P 10 "Light table 70 %" 2 [V 0 0 ""]; P 11 "Light table 60 %" 2 [V 0 0 ""]; P 12 "Light table 50 %" 2 [V 0 0 ""]; P 13 "Light table 40 %" 2 [V 0 0 ""]; P 14 "Light table 30 %" 2 [V 0 0 ""]; P 15 "Light table 20 %" 2 [V 0 0 ""]; P 16 "Light table 10 %" 2 [V 0 0 ""]].
Definition dpar108 : list gparam := [P 4 "Baud Rate" 2 [V 0 40000 ""]].
Definition dpar109 : list gparam := [P 1 "Reset to factory settings" 1 [V 0 255 ""]; P 4 "Enable dimming" 1 [V 0 0 "Disable"; V 1 1 "Enable"]; P 6 "Maximum powerload" 2 [V 25 150 ""]; P 7 "Dimming speed" 1 [V 0 255 ""]; P 8 "Fading up speed" 1 [V 0 255 ""]; P 11 "Auto meter report: percentage" 1 [V 0 255 ""]; P 12 "Auto meter report: watt" 1 [V 0 255 ""]; P 13 "Auto meter report: time" 1 [V 0 255 ""]; P 14 "Last known status" 1 [V 0 255 ""]; P 15 "Fading down speed" 1 [V 0 255 ""]].
Definition dpar110 : list gparam := [P 1 "Set to Default" 1 [V 0 255 ""]; P 4 "Start up with last known socket status" 1 [V 0 255 ""]; P 9 "Relay delay time" 1 [V 0 0 ""]; P 10 "Led indicator" 1 [V 0 2 ""]].
Definition dpar111 : list gparam := [P 1 "Set to Default" 1 [V 0 255 ""]; P 2 "Feedback time" 1 [V 0 255 ""]; P 3 "Feedback time-out" 1 [V 0 255 ""]; P 4 "feedback beeps per second" 1 [V 0 5 ""]; P 5 "Mode " 1 [V 0 255 ""]; P 6 "RFID circuit start-up time" 1 [V 0 255 ""]].
Definition dpar112 : list gparam := [P 1 "Wind Speed Action Threshold" 1 [V 0 30 ""]; P 2 "Twilight Action Threshold" 1 [V 0 100 ""]].
Definition dpar113 : list gparam := [P 1 "Send double alarms" 1 [V 0 0 "Single Alarm"; V 1 1 "Double Alarm"]].
Definition dpar114 : list gparam := [P 1 "Send double alarms" 1 [V 0 0 "Single Alarm"; V 1 1 "Double Alarm"]].
Definition dpar115 : list gparam := [P 1 "Switch All" 1 [V 0 0 "Disabled"; V 1 1 "Switch on only"; V 2 2 "Switch off only"; V 255 255 "Fully enabled (Default)"]].
Definition dpar116 : list gparam := [P 1 "Basic Set Level" 1 [V 0 99 ""]; P 2 "Configuring the OFF Delay" 1 [V 0 127 ""]].
Definition dpar117 : list gparam := [P 1 "Basic Set Level" 1 [V 0 99 ""]; P 2 "Configuring the OFF Delay" 1 [V 0 127 ""]].
Definition dpar118 : list gparam := [P 1 "Param 1" 1 [V 0 255 ""]; P 2 "Param 2" 1 [V 0 255 ""]; P 3 "Param 3" 1 [V 0 255 ""]; P 4 "Param 4" 1 [V 0 255 ""]; P 5 "Param 5" 1 [V 0 255 ""]; P 6 "Param 6" 1 [V 0 255 ""]; P 7 "Param 7" 1 [V 0 255 ""]; P 8 "Param 8" 1 [V 0 255 ""]; P 9 "Param 9" 1 [V 0 255 ""]; P 10 "Param 10" 1 [V 0 255 ""]; P 11 "Param 11" 1 [V 0 255 ""]; P 12 "Param 12" 1 [V 0 255 ""]].
Definition dpar119 : list gparam := [].
Definition dpar120 : list gparam := [].
Definition dpar121 : list gparam := [P 1 "Delayed OFF time" 1 [V 0 255 ""]; P 2 "Panic ON time" 1 [V 0 255 ""]; P 3 "Panic OFF time" 1 [V 0 255 ""]; P 4 "Basic Set Value" 1 [V 0 255 ""]; P 5 "Power Up State" 1 [V 1 1 "OFF"; V 2 2 "ON"; V 3 3 "Last State"]; P 6 "Panic mode enable" 1 [V 1 1 "OFF"; V 2 2 "ON"]].
Definition dpar122 : list gparam := [P 1 "Delayed OFF time" 1 [V 0 255 ""]].
Definition dpar123 : list gparam := [].
Definition dpar124 : list gparam := [P 1 "Delayed OFF time" 1 [V 0 255 ""]; P 2 "Panic ON time" 1 [V 0 255 ""]; P 3 "Panic OFF time" 1 [V 0 255 ""]; P 4 "Basic Set Value" 1 [V 0 255 ""]; P 5 "Power Up State" 1 [V 1 1 "OFF"; V 2 2 "ON"; V 3 3 "Last State"]; P 6 "Panic mode enable" 1 [V 1 1 "OFF"; V 2 2 "ON"]; P 7 "Dimmer Ramp Time" 1 [V 0 255 ""]; P 8 "Kickstart / Rapid Start" 1 [V 1 1 "OFF"; V 2 2 "ON"]; P 11 "Minimum Dimmer Level" 1 [V 4 99 ""]; P 12 "Maximum Dimmer Level" 1 [V 4 99 ""]].
Definition dpar125 : list gparam := [P 1 "Delayed OFF time" 1 [V 0 255 ""]; P 2 "Panic ON time" 1 [V 0 255 ""]; P 3 "Panic OFF time" 1 [V 0 255 ""]; P 4 "Basic Set Value" 1 [V 0 255 ""]; P 5 "Power Up State" 1 [V 1 1 "OFF"; V 2 2 "ON"; V 3 3 "Last State"]; P 6 "Panic mode enable" 1 [V 1 1 "OFF"; V 2 2 "ON"]; P 7 "Dimmer Ramp Time" 1 [V 0 255 ""]].
Definition dpar126 : list gparam := [].
Definition dpar127 : list gparam := [].
Definition dpar128 : list gparam := [].
Definition dpar129 : list gparam := [].
Definition dpar130 : list gparam := [P 1 "Temperature Report threshold" 2 [V 1 100 ""]; P 2 "Set-point display resolution" 2 [V 1 100 ""]; P 3 "Min Set-point and override limit" 2 [V 0 40 ""]; P 4 "Max Set-point and override limit" 2 [V 0 40 ""]; P 5 "LED Flash period" 4 [V 0 65535 ""]; P 6 "Set-point control function" 1 [V 0 0 "disabled"; V 1 1 "enabled"]; P 7 "Temporarily override scheduler" 1 [V 0 0 "disabled"; V 1 1 "enabled"]; P 8 "Set-point type in Thermostat_Setpoint_Reports" 1 [V 1 1 "Heating"; V 2 2 "Cooling"; V 10 10 "Auto-Changeover"]; P 9 "LED on time" 2 [V 1 5 ""]; P 10 "Number of LED flashes (duration)" 1 [V 0 255 ""]; P 11 "LED color" 1 [V 1 1 "Green"; V 2 2 "Red"]].
Definition dpar131 : list gparam := [P 1 "Temperature Report threshold" 2 [V 1 100 ""]; P 2 "Set-point display resolution" 2 [V 1 100 ""]; P 3 "Min Set-point and override limit" 2 [V 0 40 ""]; P 4 "Max Set-point and override limit" 2 [V 0 40 ""]; P 5 "LED Flash period" 4 [V 0 65535 ""]; P 6 "Set-point control function" 1 [V 0 0 "disabled"; V 1 1 "enabled"]; P 7 "Temporarily override scheduler" 1 [V 0 0 "disabled"; V 1 1 "enabled"]; P 8 "Set-point type in Thermostat_Setpoint_Reports" 1 [V 1 1 "Heating"; V 2 2 "Cooling"; V 10 10 "Auto-Changeover"]; P 9 "LED on time" 2 [V 1 5 ""]; P 10 "Number of LED flashes (duration)" 1 [V 0 255 ""]; P 11 "LED color" 1 [V 1 1 "Green"; V 2 2 "Red"]].
Definition dpar132 : list gparam := [].
Definition dpar133 : list gparam := [].
Definition dpar134 : list gparam := [].
Definition dpar135 : list gparam := [].
Definition dpar136 : list gparam := [].
Definition dpar137 : list gparam := [].
Definition dpar138 : list gparam := [P 1 "Watt Meter Report Period" 2 [V 0 0 "Disable"]; P 2 "KWH Meter Report Period" 2 [V 0 0 "Disable"]; P 3 "Threshold of current for Load Caution" 2 [V 10 1300 ""]; P 4 "Threshold of KWh for Load Caution" 2 [V 1 10000 ""]; P 5 "Restore switch state mode" 1 [V 0 0 "Upon the return of AC power, the switch will remain Off."; V 1 1 "resume previous state"; V 2 2 "Upon the return of AC power, the switch will turn On."]; P 6 "Mode of switch off function" 1 [V 0 0 "SWITCH OFF commands received are ignored."; V 1 1 "SWITCH OFF commands received are honored."]; P 7 "LED indication mode" 1 [V 1 1 "The LED follows the state of the switch."; V 2 2 "LED off with load ON"; V 3 3 "Flash mode"]; P 8 "Auto off timer" 2 [V 0 0 "Disable"]; P 9 "RF off command mode" 1 [V 0 0 "When SWITCH ALL OFF is received, the MT02646 turns Off."; V 1 1 "Ignore ALL OFF"; V 2 2 "If ALL OFF is received, turn ON if it is OFF"; V 3 3 "When SWITCH ALL OFF is received, the MT02646 turns On."]].
Definition dpar139 : list gparam := [P 2 "Basic Set Level" 1 [V 0 0 "Off"; V 255 255 "On"]; P 3 "PIR Sensitivity" 1 [V 0 0 "Disable"]; P 4 "Light Threshold" 1 [V 0 0 "Disable"]; P 5 "Operation Mode" 1 [V 0 127 ""]; P 6 "Multi-Sensor Function Switch" 1 [V 0 127 ""]; P 7 "Customer Function" 1 [V 0 127 ""]; P 8 "PIR Re-Detect Interval Time" 1 [V 1 127 ""]; P 9 "Turn Off Light Time" 1 [V 0 127 ""]; P 10 "Auto Report Battery Time" 1 [V 0 127 ""]; P 11 "Auto Report Door/Window State Time" 1 [V 0 127 ""]; P 12 "Auto Report Illumination Time" 1 [V 1 127 ""]; P 13 "Auto Report Temperature Time" 1 [V 1 127 ""]; P 20 "Auto Report Tick Interval" 1 [V 0 255 ""]; P 21 "Temperature Differential Report" 1 [V 0 127 ""]; P 22 "Illumination Differential Report" 1 [V 0 99 ""]].
Definition dpar140 : list gparam := [P 2 "Basic Set Level" 1 [V (-1) 100 ""]; P 3 "PIR Sensitivity" 1 [V 0 0 "Disable PIR"]; P 4 "Light Threshold" 1 [V 0 0 "Disable (Light OFF)"; V 100 100 "Disable (Light ON)"]; P 5 "Operation Mode" 1 [V 10 10 "Preset: Celsius and LED on = Bits: 00001010 = 10"]; P 6 "Multi-Sensor Function Switch" 1 [V 0 127 ""]; P 7 "Customer Function" 1 [V 20 20 "Preset: PIR Super Sensitivity and Binary Report = Bits: 00010100 = 20"]; P 8 "PIR Re-Detect Interval Time" 1 [V 1 127 ""]; P 9 "Turn Off Light Time" 1 [V 0 127 ""]; P 10 "Auto Report Battery Time" 1 [V 0 127 ""]; P 11 "Auto Report Door/Window State Time" 1 [V 0 127 ""]; P 12 "Auto Report Illumination Time" 1 [V 1 127 ""]; P 13 "Auto Report Temperature Time" 1 [V 1 127 ""]; P 20 "Auto Report Tick Interval" 1 [V 0 255 ""]; P 21 "Temperature Differential Report" 1 [V 0 127 ""]; P 22 "Illumination Differential Report" 1 [V 0 99 ""]].
Definition dpar141 : list gparam := [P 1 "Button 1 and 3 pair mode" 1 [V 0 0 "Separately"; V 1 1 "In pair without double clicks"; V 2 2 "In pair with double clicks"]; P 2 "Button 2 and 4 pair mode" 1 [V 0 0 "Separately"; V 1 1 "In pair without double clicks"; V 2 2 "In pair with double clicks"]; P 11 "Action on group 1" 1 [V 0 0 "Disabled"; V 1 1 "Switch On/Off and Dim (send Basic Set and Switch Multilevel)"; V 2 2 "Switch On/Off only (send Basic Set)"; V 3 3 "Switch all"; V 4 4 "Send Scenes"; V 5 5 "Send Preconfigured Scenes"; V 6 6 "Control devices in proximity"]; P 12 "Action on group 2" 1 [V 0 0 "Disabled"; V 1 1 "Switch On/Off and Dim (send Basic Set and Switch Multilevel)"; V 2 2 "Switch On/Off only (send Basic Set)"; V 3 3 "Switch all"; V 4 4 "Send Scenes"; V 5 5 "Send Preconfigured Scenes"; V 6 6 "Control devices in proximity"]; P 13 "Action on group 3" 1 [V 0 0 "Disabled"; V 1 1 "Switch On/Off and Dim (send Basic Set and Switch Multilevel)"; V 2 2 "Switch On/Off only (send Basic Set)"; V 3 3 "Switch all"; V 4 4 "Send Scenes"; V 5 5 "Send Preconfigured Scenes"; V 6 6 "Control devices in proximity"]; P 14 "Action on group 4" 1 [V 0 0 "Disabled"; V 1 1 "Switch On/Off and Dim (send Basic Set and Switch Multilevel)"; V 2 2 "Switch On/Off only (send Basic Set)"; V 3 3 "Switch all"; V 4 4 "Send Scenes"; V 5 5 "Send Preconfigured Scenes"; V 6 6 "Control devices in proximity"]; P 20 "Typical click timeout" 1 [V 0 255 ""]; P 21 "Send the following Switch All commands" 1 [V (-1) (-1) "Switch all on and off"; V 1 1 "NO (Normal Open)"; V 2 2 "NC (Normal Close)"]; P 22 "Invert buttons" 1 [V 0 0 "No"; V 1 1 "Yes"]; P 24 "LED confirmation mode" 1 [V 0 0 "No confirmations"; V 1 1 "Confirm button press"; V 2 2 "Confirm button press and delivery"]; P 30 "Send unsolicited Battery Report on Wake Up" 1 [V 0 0 "No"; V 1 1 "To same node as wake up notification"; V 2 2 "Broadcast to neighbours"]].
Definition dpar142 : list gparam := [P 1 "Button 1 and 3 pair mode" 1 [V 0 0 "Separately"; V 1 1 "In pair without double clicks"; V 2 2 "In pair with double clicks"]; P 2 "Button 2 and 4 pair mode" 1 [V 0 0 "Separately"; V 1 1 "In pair without double clicks"; V 2 2 "In pair with double clicks"]; P 11 "Action on group 1" 1 [V 0 0 "Disabled"; V 1 1 "Switch On/Off and Dim (send Basic Set and Switch Multilevel)"; V 2 2 "Switch On/Off only (send Basic Set)"; V 3 3 "Switch all"; V 4 4 "Send Scenes"; V 5 5 "Send Preconfigured Scenes"; V 6 6 "Control devices in proximity"; V 7 7 "Control door lock"; V 8 8 "Central scene to gateway"]; P 12 "Action on group 2" 1 [V 0 0 "Disabled"; V 1 1 "Switch On/Off and Dim (send Basic Set and Switch Multilevel)"; V 2 2 "Switch On/Off only (send Basic Set)"; V 3 3 "Switch all"; V 4 4 "Send Scenes"; V 5 5 "Send Preconfigured Scenes"; V 6 6 "Control devices in proximity"; V 7 7 "Control door lock"; V 8 8 "Central scene to gateway"]; P 13 "Action on group 3" 1 [V 0 0 "Disabled"; V 1 1 "Switch On/Off and Dim (send Basic Set and Switch Multilevel)"; V 2 2 "Switch On/Off only (send Basic Set)"; V 3 3 "Switch all"; V 4 4 "Send Scenes"; V 5 5 "Send Preconfigured Scenes"; V 6 6 "Control devices in proximity"; V 7 7 "Control door lock"; V 8 8 "Central scene to gateway"]; P 14 "Action on group 4" 1 [V 0 0 "Disabled"; V 1 1 "Switch On/Off and Dim (send Basic Set and Switch Multilevel)"; V 2 2 "Switch On/Off only (send Basic Set)"; V 3 3 "Switch all"; V 4 4 "Send Scenes"; V 5 5 "Send Preconfigured Scenes"; V 6 6 "Control devices in proximity"; V 7 7 "Control door lock"; V 8 8 "Central scene to gateway"]; P 21 "Send the following Switch All commands" 1 [V 1 1 "Switch off only"; V 2 2 "Switch on only"; V 255 255 "Switch all on and off"]; P 22 "Invert buttons" 1 [V 0 0 "No"; V 1 1 "Yes"]; P 25 "Block Wake up" 1 [V 0 0 "Wake up is BLOCKED"; V 1 1 "Wake up is POSSIBLE according to Intervall"]; P 30 "Send unsolicited Battery Report on Wake Up" 1 [V 0 0 "No"; V 1 1 "To same node as wake up notification"; V 2 2 "Broadcast to neighbours"]].
Definition dpar143 : list gparam := [P 5 "Operation Mode" 1 [V 0 0 "Fahrenheit"; V 8 8 "Celsius"]; P 6 "Multi Sensor Function Switch" 1 [V 0 0 "Enable"; V 32 32 "Disable"]; P 7 "Customer Function" 1 [V 0 0 "Using Notification Report"; V 16 16 "Using Sensor Binary Report"]; P 7 "Customer Function" 1 [V 0 0 "Enable"; V 32 32 "Disable"]; P 10 "Auto Report Battery Time" 1 [V 0 127 ""]; P 13 "Auto Report Temperature Time" 1 [V 0 127 ""]; P 14 "Auto Report Humidity Time" 1 [V 0 127 ""]; P 20 "Auto Report Tick Interval" 1 [V 0 255 ""]; P 21 "Temperature Differential Report" 1 [V 0 127 ""]; P 23 "Humidity Differential Report" 1 [V 0 60 ""]].
Definition dpar144 : list gparam := [P 1 "Basic Set OFF Level" 1 [V 0 255 ""]; P 2 "Basic Set ON Level" 1 [V 0 255 ""]; P 5 "Disable the Flood function" 1 [V 0 0 "Flood function is enabled"; V 1 1 "Flood function is disabled"]; P 7 "Customer Function" 1 [V 0 255 ""]; P 10 "Auto Report Battery Time" 1 [V 0 127 ""]; P 15 "Auto Report Flood Time" 1 [V 0 127 ""]; P 20 "Auto Report Tick Interval" 1 [V 0 255 ""]].
Definition dpar145 : list gparam := [].
Definition dpar146 : list gparam := [P 7 "Costumer  Function" 4 [V 0 65535 ""]; P 29 "Disable Alarm" 4 [V 0 1 ""]; P 31 "Alarm Duration" 4 [V 0 127 ""]].
Definition dpar147 : list gparam := [].
Definition dpar148 : list gparam := [P 2 "Basic Set Level" 1 [V 0 0 "Off"; V 255 255 "On"]; P 3 "PIR Sensitivity" 1 [V 0 0 "Disable"]; P 4 "Light Threshold" 1 [V 0 0 "Disable"]; P 5 "Operation Mode" 1 [V 10 10 "Preset: Celsius and LED on = Bits: 00001010 = 10"]; P 6 "Multi-Sensor Function Switch" 1 [V 0 127 ""]; P 7 "Customer Function" 1 [V 20 20 "Preset: PIR Super Sensitivity and Binary Report = Bits: 00010100 = 20"]; P 7 "Disable send of BASIC OFF after door closed" 1 [V 0 0 "Enable"; V 1 1 "Disable"]; P 7 "Notification Type" 1 [V 0 0 "Notification Report"; V 1 1 "Sensor Binary Report"]; P 7 "Disable Multi CC in auto report" 1 [V 0 0 "Enable"; V 1 1 "Disable"]; P 7 "Disable to report battery state when the device triggered" 1 [V 0 0 "Enable"; V 1 1 "Disable"]; P 8 "PIR Re-Detect Interval Time" 1 [V 1 127 ""]; P 9 "Turn Off Light Time" 1 [V 0 127 ""]; P 10 "Auto Report Battery Time" 1 [V 0 127 ""]; P 11 "Auto Report Door/Window State Time" 1 [V 0 127 ""]; P 12 "Auto Report Illumination Time" 1 [V 1 127 ""]; P 13 "Auto Report Temperature Time" 1 [V 1 127 ""]; P 20 "Auto Report Tick Interval" 1 [V 0 255 ""]; P 21 "Temperature Differential Report" 1 [V 0 127 ""]; P 22 "Illumination Differential Report" 1 [V 0 99 ""]].
Definition dpar149 : list gparam := [P 2 "Basic Set Level" 1 [V 0 0 "Off"; V 255 255 "On"]; P 2 "" 1 [V 0 100 ""]; P 3 "PIR Sensitivity" 1 [V 0 0 "Disable"]; P 4 "Light Threshold" 1 [V 0 0 "Disable"]; P 5 "Operation Mode" 1 [V 0 127 ""]; P 6 "Multi-Sensor Function Switch" 1 [V 0 127 ""]; P 7 "Customer Function" 1 [V 0 127 ""]; P 7 "Disable send of BASIC OFF after door closed" 1 [V 0 0 "Enable"; V 1 1 "Disable"]; P 7 "Notification Type" 1 [V 0 0 "Notification Report"; V 1 1 "Sensor Binary Report"]; P 7 "Disable Multi CC in auto report" 1 [V 0 0 "Enable"; V 1 1 "Disable"]; P 7 "Disable to report battery state when the device triggered" 1 [V 0 0 "Enable"; V 1 1 "Disable"]; P 8 "PIR Re-Detect Interval Time" 1 [V 1 127 ""]; P 9 "Turn Off Light Time" 1 [V 0 127 ""]; P 10 "Auto Report Battery Time" 1 [V 0 127 ""]; P 11 "Auto Report Door/Window State Time" 1 [V 0 127 ""]; P 12 "Auto Report Illumination Time" 1 [V 1 127 ""]; P 13 "Auto Report Temperature Time" 1 [V 1 127 ""]; P 20 "Auto Report Tick Interval" 1 [V 0 255 ""]; P 21 "Temperature Differential Report" 1 [V 0 127 ""]; P 22 "Illumination Differential Report" 1 [V 0 99 ""]].
Definition dpar150 : list gparam := [P 7 "Customer Function" 1 [V 0 0 "Using Notification Report"; V 16 16 "Using Sensor Binary Report"]; P 29 "Disable Alarm" 1 [V 0 0 "Enable Alarm"; V 1 1 "Disable Alarm"]; P 31 "Alarm Duration" 1 [V 0 127 ""]].
Definition dpar151 : list gparam := [P 1 "Dim level when the light bulb is turned On" 1 [V 0 0 "Full brightness"; V 1 1 "Last setting"]; P 9 "Dimming/Brightening Step Level" 1 [V 1 99 ""]; P 10 "Dimming/Brightening Step Timing" 1 [V 1 10 ""]].
Definition dpar152 : list gparam := [P 1 "Dim level when the bulb is turned on" 1 [V 0 0 "Full brightness"; V 1 1 "Last setting"]; P 9 "Dimming / brightening step level" 1 [V 1 99 ""]; P 10 "Dimming / brightening step timing" 1 [V 1 10 ""]].
Definition dpar153 : list gparam := [P 1 "Dim level when the bulb is turned on" 1 [V 0 0 "Full brightness"; V 1 1 "Last setting"]; P 9 "Dimming / brightening step level" 1 [V 1 99 ""]; P 10 "Dimming / brightening step timing" 1 [V 1 10 ""]].
Definition dpar154 : list gparam := [P 3 "LED Indicator" 1 [V 0 0 "off/on"; V 1 1 "on/off"; V 2 2 "off"]].
Definition dpar155 : list gparam := [P 4 "Orientation" 1 [V 0 0 "Normal"; V 1 1 "Inverted"]; P 9 "Dim Level Increment" 1 [V 0 255 ""]; P 10 "Step Duration" 1 [V 0 255 ""]].
Definition dpar156 : list gparam := [P 4 "Orientation" 1 [V 0 0 "Normal"; V 1 1 "Inverted"]; P 9 "Dim Level Increment" 1 [V 0 255 ""]; P 10 "Step Duration" 1 [V 0 255 ""]].
Definition dpar157 : list gparam := [P 3 "LED Indicator" 1 [V 0 0 "off/on"; V 1 1 "on/off"; V 2 2 "off"]; P 4 "Orientation" 1 [V 0 0 "Normal"; V 1 1 "Inverted"]].
Definition dpar158 : list gparam := [].
Definition dpar159 : list gparam := [].
Definition dpar160 : list gparam := [P 1 "Send Basic Sets" 1 [V 0 0 "Do not send"; V 255 255 "Send Basic Sets"]; P 2 "Send Binary Reports" 1 [V 0 0 "Send Sensor Binary Reports"; V 255 255 "Send only Notification Reports"]].
Definition dpar161 : list gparam := [P 99 "Toggle sending clear message to group 2" 1 [V 0 0 "Disable sending clear message"; V 1 1 "Send clear message to group 2"]].
Definition dpar162 : list gparam := [].
Definition dpar163 : list gparam := [].
Definition dpar164 : list gparam := [].
Definition dpar165 : list gparam := [].
Definition dpar166 : list gparam := [].
Definition dpar167 : list gparam := [].
Definition dpar168 : list gparam := [].
Definition dpar169 : list gparam := [].
Definition dpar170 : list gparam := [P 1 "Toggle LED mode" 1 [V 0 0 "0: LED is on when switch is off"; V 1 1 "1: LED is on when switch is on"]].
Definition dpar171 : list gparam := [P 1 "" 1 [V 0 0 "Power on, LED off"; V 1 1 "Power on, LED on"]; P 8 "" 1 [V 0 255 ""]; P 9 "" 1 [V 0 255 ""]; P 10 "" 1 [V 0 255 ""]; P 11 "" 1 [V 0 0 "Not report (METER_REPORT)"; V 1 1 "Send (METER_REPORT) only"; V 2 2 "Send (SENSOR_MULTI_LEVEL_REPORT) only"; V 3 3 "Send both"]; P 12 "" 1 [V 0 255 ""]].
Definition dpar172 : list gparam := [P 1 "configure LED light state" 1 [V 0 0 "LED off with load on"; V 1 1 "LED on with load on"]; P 2 "Reverse installed direction" 1 [V 0 0 "normal install - up is on"; V 1 1 "invert switch"]].
Definition dpar173 : list gparam := [P 1 "" 1 [V 0 0 "Power on, LED off"; V 1 1 "Power on, LED on"]; P 8 "" 1 [V 0 255 ""]; P 9 "" 1 [V 0 255 ""]; P 10 "" 1 [V 0 255 ""]; P 11 "" 1 [V 0 0 "Not report (METER_REPORT)"; V 1 1 "Send (METER_REPORT) only"; V 2 2 "Send (SENSOR_MULTI_LEVEL_REPORT) only"; V 3 3 "Send both"]; P 12 "" 1 [V 0 255 ""]].
Definition dpar174 : list gparam := [].
Definition dpar175 : list gparam := [].
Definition dpar176 : list gparam := [P 0 "Off time" 1 [V 0 255 ""]].
Definition dpar177 : list gparam := [P 3 "Unsolicited Report Configuration" 1 [V 0 1 ""]].
Definition dpar178 : list gparam := [P 3 "Unsolicited Report Configuration" 1 [V 0 255 ""]].
Definition dpar179 : list gparam := [].
Definition dpar180 : list gparam := [].
Definition dpar181 : list gparam := [].
Definition dpar182 : list gparam := [P 1 "Basic Level Set" 1 [V 0 0 "OFF"]].
Definition dpar183 : list gparam := [].
Definition dpar184 : list gparam := [P 1 "Basic Set Command value" 2 [V 0 255 ""]; P 2 "Report time delay group 1" 1 [V 3 25 ""]; P 3 "Remember last status" 1 [V 0 0 "Do not remember"; V 1 1 "Remember"]; P 4 "Switching type" 1 [V 0 0 "Edge Mode"; V 1 1 "Toogle Mode"]; P 5 "Output mode setting" 1 [V 0 0 "Dimming"; V 1 1 "On/Off"]].
Definition dpar185 : list gparam := [P 1 "Basic Set Command value" 2 [V 0 255 ""]; P 2 "Delaying Time to report to Group 1" 1 [V 3 25 ""]; P 3 "Remember the last status" 1 [V 0 1 ""]; P 4 "Output mode setting: Dimming, On/Off" 1 [V 0 1 ""]].
Definition dpar186 : list gparam := [].
Definition dpar187 : list gparam := [].
Definition dpar188 : list gparam := [P 1 "True Period" 1 [V 0 254 ""]; P 2 "Send Out Basic Command" 1 [V 0 0 "Disabled"; V 1 1 "Enabled"]; P 3 "Meter Report Period" 2 [V 0 3240 ""]].
Definition dpar189 : list gparam := [P 1 "True Period" 1 [V 0 120 ""]; P 2 "Send Basic Command to Group 2" 1 [V 0 0 "Disabled"; V 1 1 "Enabled"]; P 3 "Meter Report Period (W)" 2 [V 0 3240 ""]; P 4 "Meter Report Period (kWh)" 2 [V 0 10080 ""]].
Definition dpar190 : list gparam := [P 1 "Basic Set Command value" 2 [V 0 255 ""]; P 2 "Report time delay group 1" 1 [V 3 25 ""]; P 3 "Remember last status" 1 [V 0 0 "Do not remember"; V 1 1 "Remember"]; P 4 "Switching type" 1 [V 0 0 "Edge Mode"; V 1 1 "Toogle Mode"]].
Definition dpar191 : list gparam := [P 1 "Basic Set Command value" 2 [V 0 255 ""]; P 2 "Report time delay group 1" 1 [V 3 25 ""]; P 3 "Remember last status" 1 [V 0 0 "Do not remember"; V 1 1 "Remember"]; P 4 "Switching type" 1 [V 0 0 "Edge Mode"; V 1 1 "Toogle Mode"]].
Definition dpar192 : list gparam := [].
Definition dpar193 : list gparam := [P 1 "Command value" 2 [V 0 0 "No Basic Set Command will be sent"; V 255 255 "Basic Set Command ON will be sent"]; P 2 "Delaying time" 1 [V 3 25 ""]; P 3 "Remember status" 1 [V 0 0 "Do not remember"; V 1 1 "Remember"]; P 4 "Interval for wattage auto report" 2 [V 0 0 "Does not report automatically"]; P 5 "Interval for kW*h auto report" 2 [V 0 0 "Does not report automatically"]; P 6 "Auto report load surpasses value" 2 [V 0 0 "Does not report automatically"]; P 7 "Auto report change percentage" 1 [V 0 0 "Does not report automatically"]].
Definition dpar194 : list gparam := [P 1 "Basic Set Level" 1 [V 0 99 ""]; P 2 "Amount Of Delay" 1 [V 0 127 ""]].
Definition dpar195 : list gparam := [P 1 "Basic Set Level" 2 [V 0 99 ""]; P 2 "Configuring the OFF Delay" 1 [V 0 127 ""]; P 3 "Staying Awake (for testing)" 1 [V 0 1 ""]].
Definition dpar196 : list gparam := [P 1 "Basic Set Level" 2 [V 0 99 ""]; P 2 "Configuring the OFF Delay" 1 [V 0 127 ""]; P 3 "Staying Awake (for testing)" 1 [V 0 1 ""]].
Definition dpar197 : list gparam := [P 1 "Basic Set Level" 1 [V 0 99 ""]; P 2 "Sensor Detecting Function" 1 [V 1 1 "Group 1 Enabled / Group 2 Enabled"; V 2 2 "Group 1 Enabled / Group 2 Disabled"; V 3 3 "Group 1 Disabled / Group 2 Disabled"]; P 3 "Sensitivity Level" 1 [V 1 10 ""]; P 4 "Re-trigger Interval Setting" 1 [V 5 255 ""]; P 5 "LUX Level" 1 [V 1 100 ""]; P 6 "On-Off Duration" 1 [V 5 255 ""]].
Definition dpar198 : list gparam := [].
Definition dpar199 : list gparam := [].
Definition dpar200 : list gparam := [P 1 "Basic Set Level" 1 [V 0 99 ""]; P 2 "Configuring the OFF Delay" 1 [V 0 127 ""]].
Definition dpar201 : list gparam := [P 1 "Phase level on command" 1 [V 0 0 "Set OFF"; V 1 1 "Set ON"; V 9 9 "Set LAST Level"]; P 2 "Enable/Disable Sleeping" 1 [V 0 0 "Disabled"; V 1 1 "Enabled"]].
Definition dpar202 : list gparam := [P 1 "Basic Set Level" 1 [V 0 99 ""]; P 2 "Enable/Disable Detecting" 1 [V 0 0 "Disabled"; V 1 1 "Enabled"]; P 3 "Sensitivity Level" 1 [V 1 10 ""]; P 4 "Re-trigger Interval" 2 [V 5 3600 ""]; P 5 "Lux Level" 1 [V 1 100 ""]; P 6 "On-Off Duration" 1 [V 5 255 ""]].
Definition dpar203 : list gparam := [P 1 "Basic Level Set" 1 [V 0 99 ""]].
Definition dpar204 : list gparam := [P 1 "Basic Set Level" 1 [V 0 0 "Disable"]; P 2 "Temperature Trigger ON value" 1 [V 99 99 "Disable"]; P 3 "Temperature Trigger OFF value" 1 [V 99 99 "Disable"]; P 4 "Humidity Trigger ON value" 1 [V 99 99 "Disable"]; P 5 "Humidity Trigger OFF value" 1 [V 99 99 "Disable"]; P 6 "Auto report time" 2 [V 0 0 "Disable"]; P 7 "Auto report temperature" 1 [V 0 0 "Disable"]; P 8 "Auto report humidity" 1 [V 0 0 "Disable"]].
Definition dpar205 : list gparam := [P 1 "Basic Set Level" 1 [V 0 99 ""]; P 2 "Lux Trigger On Value" 2 [V 0 1000 ""]; P 3 "Lux Trigger Off Value" 2 [V 0 1000 ""]; P 4 "Lux Trigger Off Timer Value." 2 [V 0 480 ""]; P 5 "Auto Report Time Interval" 2 [V 0 1439 ""]; P 6 "Auto Report Lux Interval" 2 [V 0 1000 ""]].
Definition dpar206 : list gparam := [].
Definition dpar207 : list gparam := [P 3 "Night Light" 1 [V 0 0 "No"; V 1 1 "Yes"]].
Definition dpar208 : list gparam := [].
Definition dpar209 : list gparam := [P 3 "Night Light" 1 [V 0 0 "No"; V 1 1 "Yes"]; P 4 "Invert Switch" 1 [V 0 0 "No"; V 1 1 "Yes"]; P 29 "Load Sense" 1 [V 0 0 "Disable"; V 1 1 "Enable"]].
Definition dpar210 : list gparam := [P 3 "Night Light" 1 [V 0 0 "On when load is on"; V 1 1 "Off when load is on"]; P 4 "Invert Switch" 1 [V 0 0 "Top-ON, Bottom-OFF"; V 1 1 "Bottom--ON, Top-OFF"]].
Definition dpar211 : list gparam := [].
Definition dpar212 : list gparam := [].
Definition dpar213 : list gparam := [].
Definition dpar214 : list gparam := [].
Definition dpar215 : list gparam := [P 1 "IN1 Alarm Cancellation Delay" 2 [V 0 65535 ""]; P 2 "IN2 Alarm Cancellation Delay" 2 [V 0 65535 ""]; P 3 "Type of input no. 1" 1 [V 0 0 "NO (Normal Open)"; V 1 1 "NC (Normal Close)"; V 2 2 "MONOSTABLE"; V 3 3 "BISTABLE"]; P 4 "Type of input no. 2" 1 [V 0 0 "NO (Normal Open)"; V 1 1 "NC (Normal Close)"; V 2 2 "MONOSTABLE"; V 3 3 "BISTABLE"]; P 5 "Type of transmitted control frame for association group 1" 1 [V 0 0 "ALARM GENERIC"; V 1 1 "ALARM SMOKE"; V 2 2 "ALARM CO"; V 3 3 "ALARM CO2"; V 4 4 "ALARM HEAT"; V 5 5 "ALARM WATER"; V 255 255 "BASIC_SET"]; P 6 "Type of transmitted control frame for association group 2" 1 [V 0 0 "ALARM GENERIC"; V 1 1 "ALARM SMOKE"; V 2 2 "ALARM CO"; V 3 3 "ALARM CO2"; V 4 4 "ALARM HEAT"; V 5 5 "ALARM WATER"; V 255 255 "BASIC_SET"]; P 7 "Forced Level of Dimming group 1" 1 [V 1 255 ""]; P 8 "Forced Level of Dimming group 2" 1 [V 1 255 ""]; P 9 "Deactivate transmission of frame canceling alarm" 1 [V 0 0 "Groups 1 and 2 sent"; V 1 1 "Group 1 sent, Group 2 not sent."; V 2 2 "Group 1 not sent, Group 2 sent."]; P 10 "Interval between successive readings of temperature sensors" 1 [V 1 255 ""]; P 11 "Interval betw. forcing to send report concerning the temp." 1 [V 1 255 ""]; P 12 "Insensitiveness to temperature changes." 1 [V 0 255 ""]; P 13 "Transmitting the alarm or control frame broadcast mode" 1 [V 0 0 "IN1 and IN2 Broadcast inactive"; V 1 1 "IN1 broadcast mode active, Sensor 2 broadcast mode inactive"; V 2 2 "IN1 broadcast mode inactive, Sensor 2 broadcast mode active"; V 3 3 "INI and IN2 broadcast mode active"]; P 14 "Scene activation" 1 [V 0 0 "Scenes disabled"; V 1 1 "Scenes enabled"]].
Definition dpar216 : list gparam := [P 1 "IN1 Alarm Cancellation Delay" 2 [V 0 65535 ""]; P 2 "IN2 Alarm Cancellation Delay" 2 [V 0 65535 ""]; P 3 "Type of input no. 1" 1 [V 0 0 "NO (Normal Open)"; V 1 1 "NC (Normal Close)"; V 2 2 "MONOSTABLE"; V 3 3 "BISTABLE"]; P 4 "Type of input no. 2" 1 [V 0 0 "NO (Normal Open)"; V 1 1 "NC (Normal Close)"; V 2 2 "MONOSTABLE"; V 3 3 "BISTABLE"]; P 5 "Type of transmitted control frame for association group 1" 1 [V 0 0 "ALARM GENERIC"; V 1 1 "ALARM SMOKE"; V 2 2 "ALARM CO"; V 3 3 "ALARM CO2"; V 4 4 "ALARM HEAT"; V 5 5 "ALARM WATER"; V 255 255 "BASIC_SET"]; P 6 "Type of transmitted control frame for association group 2" 1 [V 0 0 "ALARM GENERIC"; V 1 1 "ALARM SMOKE"; V 2 2 "ALARM CO"; V 3 3 "ALARM CO2"; V 4 4 "ALARM HEAT"; V 5 5 "ALARM WATER"; V 255 255 "BASIC_SET"]; P 7 "Forced Level of Dimming group 1" 1 [V 1 255 ""]; P 8 "Forced Level of Dimming group 2" 1 [V 1 255 ""]; P 9 "Deactivate transmission of frame canceling alarm" 1 [V 0 0 "Groups 1 and 2 sent"; V 1 1 "Group 1 sent, Group 2 not sent."; V 2 2 "Group 1 not sent, Group 2 sent."]; P 10 "Interval between successive readings of temperature sensors" 1 [V 1 255 ""]; P 11 "Interval betw. forcing to send report concerning the temp." 1 [V 1 255 ""]; P 12 "Insensitiveness to temperature changes." 1 [V 0 255 ""]; P 13 "Transmitting the alarm or control frame broadcast mode" 1 [V 0 0 "IN1 and IN2 Broadcast inactive"; V 1 1 "IN1 broadcast mode active, Sensor 2 broadcast mode inactive"; V 2 2 "IN1 broadcast mode inactive, Sensor 2 broadcast mode active"; V 3 3 "INI and IN2 broadcast mode active"]; P 14 "Scene activation" 1 [V 0 0 "Scenes disabled"; V 1 1 "Scenes enabled"]].
Definition dpar217 : list gparam := [P 1 "IN1 Alarm Cancellation Delay" 2 [V 0 65535 ""]; P 2 "IN2 Alarm Cancellation Delay" 2 [V 0 65535 ""]; P 3 "Type of input no. 1" 1 [V 0 0 "NO (Normal Open)"; V 1 1 "NC (Normal Close)"; V 2 2 "MONOSTABLE"; V 3 3 "BISTABLE"]; P 4 "Type of input no. 2" 1 [V 0 0 "NO (Normal Open)"; V 1 1 "NC (Normal Close)"; V 2 2 "MONOSTABLE"; V 3 3 "BISTABLE"]; P 5 "Type of transmitted control frame for association group 1" 1 [V 0 0 "ALARM GENERIC"; V 1 1 "ALARM SMOKE"; V 2 2 "ALARM CO"; V 3 3 "ALARM CO2"; V 4 4 "ALARM HEAT"; V 5 5 "ALARM WATER"; V 255 255 "BASIC_SET"]; P 6 "Type of transmitted control frame for association group 2" 1 [V 0 0 "ALARM GENERIC"; V 1 1 "ALARM SMOKE"; V 2 2 "ALARM CO"; V 3 3 "ALARM CO2"; V 4 4 "ALARM HEAT"; V 5 5 "ALARM WATER"; V 255 255 "BASIC_SET"]; P 7 "Forced Level of Dimming group 1" 1 [V 1 255 ""]; P 8 "Forced Level of Dimming group 2" 1 [V 1 255 ""]; P 9 "Deactivate transmission of frame canceling alarm" 1 [V 0 0 "Groups 1 and 2 sent"; V 1 1 "Group 1 sent, Group 2 not sent."; V 2 2 "Group 1 not sent, Group 2 sent."]; P 10 "Interval between successive readings of temperature sensors" 1 [V 1 255 ""]; P 11 "Interval betw. forcing to send report concerning the temp." 1 [V 1 255 ""]; P 12 "Insensitiveness to temperature changes." 1 [V 0 255 ""]; P 13 "Transmitting the alarm or control frame broadcast mode" 1 [V 0 0 "IN1 and IN2 Broadcast inactive"; V 1 1 "IN1 broadcast mode active, Sensor 2 broadcast mode inactive"; V 2 2 "IN1 broadcast mode inactive, Sensor 2 broadcast mode active"; V 3 3 "INI and IN2 broadcast mode active"]; P 14 "Scene activation" 1 [V 0 0 "Scenes disabled"; V 1 1 "Scenes enabled"]].
Definition dpar218 : list gparam := [P 1 "IN1 Alarm Cancellation Delay" 2 [V 0 65535 ""]; P 2 "IN2 Alarm Cancellation Delay" 2 [V 0 65535 ""]; P 3 "Type of input no. 1" 1 [V 0 0 "NO (Normal Open)"; V 1 1 "NC (Normal Close)"; V 2 2 "MONOSTABLE"; V 3 3 "BISTABLE"]; P 4 "Type of input no. 2" 1 [V 0 0 "NO (Normal Open)"; V 1 1 "NC (Normal Close)"; V 2 2 "MONOSTABLE"; V 3 3 "BISTABLE"]; P 5 "Type of transmitted control frame for association group 1" 1 [V 0 0 "ALARM GENERIC"; V 1 1 "ALARM SMOKE"; V 2 2 "ALARM CO"; V 3 3 "ALARM CO2"; V 4 4 "ALARM HEAT"; V 5 5 "ALARM WATER"; V 255 255 "BASIC_SET"]; P 6 "Type of transmitted control frame for association group 2" 1 [V 0 0 "ALARM GENERIC"; V 1 1 "ALARM SMOKE"; V 2 2 "ALARM CO"; V 3 3 "ALARM CO2"; V 4 4 "ALARM HEAT"; V 5 5 "ALARM WATER"; V 255 255 "BASIC_SET"]; P 7 "Forced Level of Dimming group 1" 1 [V 1 255 ""]; P 8 "Forced Level of Dimming group 2" 1 [V 1 255 ""]; P 9 "Deactivate transmission of frame canceling alarm" 1 [V 0 0 "Groups 1 and 2 sent"; V 1 1 "Group 1 sent, Group 2 not sent."; V 2 2 "Group 1 not sent, Group 2 sent."]; P 10 "Interval between successive readings of temperature sensors" 1 [V 1 255 ""]; P 11 "Interval betw. forcing to send report concerning the temp." 1 [V 1 255 ""]; P 12 "Insensitiveness to temperature changes." 1 [V 0 255 ""]; P 13 "Transmitting the alarm or control frame broadcast mode" 1 [V 0 0 "IN1 and IN2 Broadcast inactive"; V 1 1 "IN1 broadcast mode active, Sensor 2 broadcast mode inactive"; V 2 2 "IN1 broadcast mode inactive, Sensor 2 broadcast mode active"; V 3 3 "INI and IN2 broadcast mode active"]; P 14 "Scene activation" 1 [V 0 0 "Scenes disabled"; V 1 1 "Scenes enabled"]].
Definition dpar219 : list gparam := [P 1 "Device Orientation" 1 [V 0 0 "Default Orientation"; V 1 1 "180° rotation"; V 2 2 "90° clockwise rotation"; V 3 3 "90° counter-clockwise rotation"]; P 2 "Buzzer - acoustic signal settings" 1 [V 0 0 "Gestures detection is not signalled"; V 1 1 "Gestures detection is signalled"]; P 3 " LED diode - visual indicator settings" 1 [V 0 0 "Gestures detection is not indicated"; V 1 1 " Gestures detection is indicated"]; P 4 "Buzzer - signalling result of gesture recognition" 1 [V 1 1 "Only successful recognition is signalled"; V 2 2 "Only failed recognition is signalled"; V 3 3 "Successful and failed recognition is signalled"]; P 5 "Powering mode - interval of updating the current mode" 2 [V 0 0 "Powering mode is not updated"; V 1 1 "Time interval (in minutes)"]; P 6 "Power saving mode (battery mode)" 1 [V 0 0 "Standby mode"; V 1 1 "Simple mode"; V 2 2 "Swipe does not enter power saving mode"]; P 7 "Hold gesture to enter the menu" 1 [V 0 0 "Hold gesture to enter the menu enabled"; V 1 1 "Hold gesture to enter the menu disabled"]; P 10 "Scenes sent to the controller" 1 [V 1 1 "Scenes for flick UP gesture enabled"; V 2 2 "Scenes for flick DOWN gesture enabled"; V 4 4 "Scenes for flick LEFT gesture enabled"; V 8 8 "Scenes for flick RIGHT gesture enabled"; V 16 16 "Scenes for clockwise circular gesture enabled"; V 32 32 "Scenes for counter-clockwise circular gesture enabled"; V 63 63 "All commands enabled"]; P 11 "Associations in Z-Wave network security mode" 1 [V 1 1 "2nd group ”Flick UP” sent as secure"; V 2 2 "3rd group ”Flick DOWN” sent as secure"; V 4 4 "4th group ""Flick LEFT” sent as secure"; V 8 8 "5th group ""Flick RIGHT” sent as secure"; V 16 16 "6th group ""Circular AirWheel” sent as secure"]; P 12 "Control mode of 2nd - 5th ""Flick UP/DOWN/LEFT/RIGHT” association groups and scenes" 1 [V 1 1 "Toggle Mode enabled for 2nd association group"; V 2 2 "Toggle Mode enabled for 3rd association group"; V 4 4 "Toggle Mode enabled for 4th association group"; V 8 8 "Toggle Mode enabled for 5th association group"]; P 13 "Rate of smooth level control" 2 [V 0 255 ""]; P 20 "SWITCH ON control frame value for FLICK UP gesture" 2 [V 0 255 ""]; P 21 "SWITCH OFF control frame value for FLICK UP gesture" 2 [V 0 255 ""]; P 22 "SWITCH ON control frame value for FLICK DOWN gesture" 2 [V 0 255 ""]; P 23 "SWITCH OFF control frame value for FLICK DOWN gesture" 2 [V 0 255 ""]; P 24 "SWITCH ON control frame value for FLICK LEFT gesture" 2 [V 0 255 ""]; P 25 "SWITCH OFF control frame value for FLICK LEFT gesture" 2 [V 0 255 ""]; P 26 "SWITCH ON control frame value for FLICK RIGHT gesture" 2 [V 0 255 ""]; P 27 "SWITCH OFF control frame value for FLICK RIGHT gesture" 2 [V 0 255 ""]; P 30 "Sequence learning mode" 1 [V 0 6 ""]; P 31 "1st gestures sequence (SLOT 1)" 2 [V 0 1076 ""]; P 32 "2nd gestures sequence (SLOT 2)" 2 [V 0 1076 ""]; P 33 "3rd gestures sequence (SLOT 3)" 2 [V 0 1076 ""]; P 34 "4th gestures sequence (SLOT 4)" 2 [V 0 1076 ""]; P 35 "5th gestures sequence (SLOT 5)" 2 [V 0 1076 ""]; P 36 "6th gestures sequence (SLOT 6)" 2 [V 0 1076 ""]].
Definition dpar220 : list gparam := [P 1 "Device Orientation" 1 [V 0 0 "Default Orientation"; V 1 1 "180° rotation"; V 2 2 "90° clockwise rotation"; V 3 3 "90° counter-clockwise rotation"]; P 2 "Buzzer - acoustic signal settings" 1 [V 0 0 "Gestures detection is not signalled"; V 1 1 "Gestures detection is signalled"]; P 3 " LED diode - visual indicator settings" 1 [V 0 0 "Gestures detection is not indicated"; V 1 1 " Gestures detection is indicated"]; P 4 "Buzzer - signalling result of gesture recognition" 1 [V 1 1 "Only successful recognition is signalled"; V 2 2 "Only failed recognition is signalled"; V 3 3 "Successful and failed recognition is signalled"]; P 5 "Powering mode - interval of updating the current mode" 2 [V 0 0 "Powering mode is not updated"; V 1 1 "Time interval (in minutes)"]; P 6 "Power saving mode (battery mode)" 1 [V 0 0 "Standby mode"; V 1 1 "Simple mode"; V 2 2 "Swipe does not enter power saving mode"]; P 7 "Hold gesture to enter the menu" 1 [V 0 0 "Hold gesture to enter the menu enabled"; V 1 1 "Hold gesture to enter the menu disabled"]; P 10 "Scenes sent to the controller" 1 [V 1 1 "Scenes for flick UP gesture enabled"; V 2 2 "Scenes for flick DOWN gesture enabled"; V 4 4 "Scenes for flick LEFT gesture enabled"; V 8 8 "Scenes for flick RIGHT gesture enabled"; V 16 16 "Scenes for clockwise circular gesture enabled"; V 32 32 "Scenes for counter-clockwise circular gesture enabled"; V 63 63 "All commands enabled"]; P 11 "Associations in Z-Wave network security mode" 1 [V 1 1 "2nd group ”Flick UP” sent as secure"; V 2 2 "3rd group ”Flick DOWN” sent as secure"; V 4 4 "4th group ""Flick LEFT” sent as secure"; V 8 8 "5th group ""Flick RIGHT” sent as secure"; V 16 16 "6th group ""Circular AirWheel” sent as secure"]; P 12 "Control mode of 2nd - 5th ""Flick UP/DOWN/LEFT/RIGHT” association groups and scenes" 1 [V 1 1 "Toggle Mode enabled for 2nd association group"; V 2 2 "Toggle Mode enabled for 3rd association group"; V 4 4 "Toggle Mode enabled for 4th association group"; V 8 8 "Toggle Mode enabled for 5th association group"]; P 13 "Rate of smooth level control" 2 [V 0 255 ""]; P 20 "SWITCH ON control frame value for FLICK UP gesture" 2 [V 0 255 ""]; P 21 "SWITCH OFF control frame value for FLICK UP gesture" 2 [V 0 255 ""]; P 22 "SWITCH ON control frame value for FLICK DOWN gesture" 2 [V 0 255 ""]; P 23 "SWITCH OFF control frame value for FLICK DOWN gesture" 2 [V 0 255 ""]; P 24 "SWITCH ON control frame value for FLICK LEFT gesture" 2 [V 0 255 ""]; P 25 "SWITCH OFF control frame value for FLICK LEFT gesture" 2 [V 0 255 ""]; P 26 "SWITCH ON control frame value for FLICK RIGHT gesture" 2 [V 0 255 ""]; P 27 "SWITCH OFF control frame value for FLICK RIGHT gesture" 2 [V 0 255 ""]; P 30 "Sequence learning mode" 1 [V 0 6 ""]; P 31 "1st gestures sequence (SLOT 1)" 2 [V 0 1076 ""]; P 32 "2nd gestures sequence (SLOT 2)" 2 [V 0 1076 ""]; P 33 "3rd gestures sequence (SLOT 3)" 2 [V 0 1076 ""]; P 34 "4th gestures sequence (SLOT 4)" 2 [V 0 1076 ""]; P 35 "5th gestures sequence (SLOT 5)" 2 [V 0 1076 ""]; P 36 "6th gestures sequence (SLOT 6)" 2 [V 0 1076 ""]].
Definition dpar221 : list gparam := [P 1 "Enable/Disable ALL ON/OFF" 1 [V (-1) (-1) "ALL ON active / ALL OFF active"; V 0 0 "ALL ON disabled / ALL OFF disabled"; V 1 1 "ALL ON disabled / ALL OFF active"; V 2 2 "ALL ON active / ALL OFF disabled"]; P 6 "Separation of association sending (key 1)" 1 [V 0 0 "Map status to all devices in group 1"; V 1 1 "Map OFF status to all devices in group 1, Double click on key 1 will s"; V 2 2 "Map OFF status to all devices in group 1, Double click on key 1 will s"]; P 7 "Control key #2 behaviour" 1 [V 0 0 "Device status is not checked"; V 1 1 "Device status is checked"]; P 8 "Dimming step at automatic control" 1 [V 1 99 ""]; P 9 "Time of MANUALLY moving between the extreme dimming values" 1 [V 1 255 ""]; P 10 "Time of AUTOMATIC moving between the extreme dimming values" 1 [V 0 255 ""]; P 11 "Dimming step at manual control" 1 [V 1 99 ""]; P 12 "Maximum dimmer level control" 1 [V 2 99 ""]; P 13 "Minimum dimmer level control" 1 [V 0 255 ""]; P 14 "Inputs Button/Switch configuration" 1 [V 0 0 "Mono-stable input (button)"; V 1 1 "Bi-stable input (switch)"]; P 15 "Parm 15" 1 [V 0 0 "Disable double click"; V 1 1 "Enable double click"]; P 16 "Saving state before power failure" 1 [V 0 0 "State NOT saved at power failure, all outputs are set to OFF upon powe"; V 1 1 "State saved at power failure, all outputs are set to previous state up"]; P 17 "3-way switch" 1 [V 0 0 "Disable"; V 1 1 "Enable"]; P 18 "Synchronizing light level for associated devices" 1 [V 0 0 "Disable"; V 1 1 "Enable"]; P 19 "Change [On-Off] bi-stable keys" 1 [V 0 0 "Device changes status on key status change"; V 1 1 "Device status depends on key status; ON when the key is ON, OFF when t"]; P 20 "Parm 20" 1 [V 100 170 ""]; P 30 "Relay 1: Response to General Alarm" 1 [V 0 0 "DEACTIVATION - no response to alarm frames"; V 1 1 "ALARM RELAY ON - relay will turn ON upon receipt of alarm frame"; V 2 2 "ALARM RELAY OFF - relay will turn OFF upon receipt of alarm frame"; V 3 3 "ALARM FLASHING - relay will turn ON and OFF periodically (see param.39"]; P 39 "ALARM FLASHING alarm time" 2 [V 0 65535 ""]].
Definition dpar222 : list gparam := [P 1 "Enable/Disable ALL ON/OFF" 1 [V (-1) (-1) "ALL ON active / ALL OFF active"; V 0 0 "ALL ON disabled / ALL OFF disabled"; V 1 1 "ALL ON disabled / ALL OFF active"; V 2 2 "ALL ON active / ALL OFF disabled"]; P 6 "Separation of association sending (key 1)" 1 [V 0 0 "Map status to all devices in group 1"; V 1 1 "Map OFF status to all devices in group 1, Double click on key 1 will s"; V 2 2 "Map OFF status to all devices in group 1, Double click on key 1 will s"]; P 7 "Control key #2 behaviour" 1 [V 0 0 "Device status is not checked"; V 1 1 "Device status is checked"]; P 8 "Dimming step at automatic control" 1 [V 1 99 ""]; P 9 "Time of MANUALLY moving between the extreme dimming values" 1 [V 1 255 ""]; P 10 "Time of AUTOMATIC moving between the extreme dimming values" 1 [V 0 255 ""]; P 11 "Dimming step at manual control" 1 [V 1 99 ""]; P 12 "Maximum dimmer level control" 1 [V 2 99 ""]; P 13 "Minimum dimmer level control" 1 [V 0 255 ""]; P 14 "Inputs Button/Switch configuration" 1 [V 0 0 "Mono-stable input (button)"; V 1 1 "Bi-stable input (switch)"]; P 15 "Parm 15" 1 [V 0 0 "Disable double click"; V 1 1 "Enable double click"]; P 16 "Saving state before power failure" 1 [V 0 0 "State NOT saved at power failure, all outputs are set to OFF upon powe"; V 1 1 "State saved at power failure, all outputs are set to previous state up"]; P 17 "3-way switch" 1 [V 0 0 "Disable"; V 1 1 "Enable"]; P 18 "Synchronizing light level for associated devices" 1 [V 0 0 "Disable"; V 1 1 "Enable"]; P 19 "Change [On-Off] bi-stable keys" 1 [V 0 0 "Device changes status on key status change"; V 1 1 "Device status depends on key status; ON when the key is ON, OFF when t"]; P 20 "Parm 20" 1 [V 100 170 ""]; P 30 "Relay 1: Response to General Alarm" 1 [V 0 0 "DEACTIVATION - no response to alarm frames"; V 1 1 "ALARM RELAY ON - relay will turn ON upon receipt of alarm frame"; V 2 2 "ALARM RELAY OFF - relay will turn OFF upon receipt of alarm frame"; V 3 3 "ALARM FLASHING - relay will turn ON and OFF periodically (see param.39"]; P 39 "ALARM FLASHING alarm time" 2 [V 0 65535 ""]].
Definition dpar223 : list gparam := [P 1 "Enable/Disable ALL ON/OFF" 1 [V (-1) (-1) "ALL ON active / ALL OFF active"; V 0 0 "ALL ON disabled / ALL OFF disabled"; V 1 1 "ALL ON disabled / ALL OFF active"; V 2 2 "ALL ON active / ALL OFF disabled"]; P 6 "Separation of association sending (key 1)" 1 [V 0 0 "Map status to all devices in group 1"; V 1 1 "Map OFF status to all devices in group 1, Double click on key 1 will s"; V 2 2 "Map OFF status to all devices in group 1, Double click on key 1 will s"]; P 7 "Control key #2 behaviour" 1 [V 0 0 "Device status is not checked"; V 1 1 "Device status is checked"]; P 8 "Dimming step at automatic control" 1 [V 1 99 ""]; P 9 "Time of MANUALLY moving between the extreme dimming values" 1 [V 1 255 ""]; P 10 "Time of AUTOMATIC moving between the extreme dimming values" 1 [V 0 255 ""]; P 11 "Dimming step at manual control" 1 [V 1 99 ""]; P 12 "Maximum dimmer level control" 1 [V 2 99 ""]; P 13 "Minimum dimmer level control" 1 [V 0 255 ""]; P 14 "Inputs Button/Switch configuration" 1 [V 0 0 "Mono-stable input (button)"; V 1 1 "Bi-stable input (switch)"]; P 15 "Parm 15" 1 [V 0 0 "Disable double click"; V 1 1 "Enable double click"]; P 16 "Saving state before power failure" 1 [V 0 0 "State NOT saved at power failure, all outputs are set to OFF upon powe"; V 1 1 "State saved at power failure, all outputs are set to previous state up"]; P 17 "3-way switch" 1 [V 0 0 "Disable"; V 1 1 "Enable"]; P 18 "Synchronizing light level for associated devices" 1 [V 0 0 "Disable"; V 1 1 "Enable"]; P 19 "Change [On-Off] bi-stable keys" 1 [V 0 0 "Device changes status on key status change"; V 1 1 "Device status depends on key status; ON when the key is ON, OFF when t"]; P 20 "Parm 20" 1 [V 100 170 ""]; P 30 "Relay 1: Response to General Alarm" 1 [V 0 0 "DEACTIVATION - no response to alarm frames"; V 1 1 "ALARM RELAY ON - relay will turn ON upon receipt of alarm frame"; V 2 2 "ALARM RELAY OFF - relay will turn OFF upon receipt of alarm frame"; V 3 3 "ALARM FLASHING - relay will turn ON and OFF periodically (see param.39"]; P 39 "ALARM FLASHING alarm time" 2 [V 0 65535 ""]].
Definition dpar224 : list gparam := [P 1 "Enable/Disable ALL ON/OFF" 1 [V (-1) (-1) "ALL ON active / ALL OFF active"; V 0 0 "ALL ON disabled / ALL OFF disabled"; V 1 1 "ALL ON disabled / ALL OFF active"; V 2 2 "ALL ON active / ALL OFF disabled"]; P 6 "Separation of association sending (key 1)" 1 [V 0 0 "Map status to all devices in group 1"; V 1 1 "Map OFF status to all devices in group 1, Double click on key 1 will s"; V 2 2 "Map OFF status to all devices in group 1, Double click on key 1 will s"]; P 7 "Control key #2 behaviour" 1 [V 0 0 "Device status is not checked"; V 1 1 "Device status is checked"]; P 8 "Dimming step at automatic control" 1 [V 1 99 ""]; P 9 "Time of MANUALLY moving between the extreme dimming values" 1 [V 1 255 ""]; P 10 "Time of AUTOMATIC moving between the extreme dimming values" 1 [V 0 255 ""]; P 11 "Dimming step at manual control" 1 [V 1 99 ""]; P 12 "Maximum dimmer level control" 1 [V 2 99 ""]; P 13 "Minimum dimmer level control" 1 [V 0 255 ""]; P 14 "Inputs Button/Switch configuration" 1 [V 0 0 "Mono-stable input (button)"; V 1 1 "Bi-stable input (switch)"]; P 15 "Parm 15" 1 [V 0 0 "Disable double click"; V 1 1 "Enable double click"]; P 16 "Saving state before power failure" 1 [V 0 0 "State NOT saved at power failure, all outputs are set to OFF upon powe"; V 1 1 "State saved at power failure, all outputs are set to previous state up"]; P 17 "3-way switch" 1 [V 0 0 "Disable"; V 1 1 "Enable"]; P 18 "Synchronizing light level for associated devices" 1 [V 0 0 "Disable"; V 1 1 "Enable"]; P 19 "Change [On-Off] bi-stable keys" 1 [V 0 0 "Device changes status on key status change"; V 1 1 "Device status depends on key status; ON when the key is ON, OFF when t"]; P 20 "Parm 20" 1 [V 100 170 ""]; P 30 "Relay 1: Response to General Alarm" 1 [V 0 0 "DEACTIVATION - no response to alarm frames"; V 1 1 "ALARM RELAY ON - relay will turn ON upon receipt of alarm frame"; V 2 2 "ALARM RELAY OFF - relay will turn OFF upon receipt of alarm frame"; V 3 3 "ALARM FLASHING - relay will turn ON and OFF periodically (see param.39"]; P 39 "ALARM FLASHING alarm time" 2 [V 0 65535 ""]].
Definition dpar225 : list gparam := [P 1 "Enable/Disable ALL ON/OFF" 1 [V (-1) (-1) "ALL ON active / ALL OFF active"; V 0 0 "ALL ON disabled / ALL OFF disabled"; V 1 1 "ALL ON disabled / ALL OFF active"; V 2 2 "ALL ON active / ALL OFF disabled"]; P 6 "Separation of association sending (key 1)" 1 [V 0 0 "Map status to all devices in group 1"; V 1 1 "Map OFF status to all devices in group 1, Double click on key 1 will s"; V 2 2 "Map OFF status to all devices in group 1, Double click on key 1 will s"]; P 7 "Control key #2 behaviour" 1 [V 0 0 "Device status is not checked"; V 1 1 "Device status is checked"]; P 8 "Dimming step at automatic control" 1 [V 1 99 ""]; P 9 "Time of MANUALLY moving between the extreme dimming values" 1 [V 1 255 ""]; P 10 "Time of AUTOMATIC moving between the extreme dimming values" 1 [V 0 255 ""]; P 11 "Dimming step at manual control" 1 [V 1 99 ""]; P 12 "Maximum dimmer level control" 1 [V 2 99 ""]; P 13 "Minimum dimmer level control" 1 [V 0 255 ""]; P 14 "Inputs Button/Switch configuration" 1 [V 0 0 "Mono-stable input (button)"; V 1 1 "Bi-stable input (switch)"]; P 15 "Parm 15" 1 [V 0 0 "Disable double click"; V 1 1 "Enable double click"]; P 16 "Saving state before power failure" 1 [V 0 0 "State NOT saved at power failure, all outputs are set to OFF upon powe"; V 1 1 "State saved at power failure, all outputs are set to previous state up"]; P 17 "3-way switch" 1 [V 0 0 "Disable"; V 1 1 "Enable"]; P 18 "Synchronizing light level for associated devices" 1 [V 0 0 "Disable"; V 1 1 "Enable"]; P 19 "Change [On-Off] bi-stable keys" 1 [V 0 0 "Device changes status on key status change"; V 1 1 "Device status depends on key status; ON when the key is ON, OFF when t"]; P 20 "Parm 20" 1 [V 100 170 ""]; P 30 "Relay 1: Response to General Alarm" 1 [V 0 0 "DEACTIVATION - no response to alarm frames"; V 1 1 "ALARM RELAY ON - relay will turn ON upon receipt of alarm frame"; V 2 2 "ALARM RELAY OFF - relay will turn OFF upon receipt of alarm frame"; V 3 3 "ALARM FLASHING - relay will turn ON and OFF periodically (see param.39"]; P 39 "ALARM FLASHING alarm time" 2 [V 0 65535 ""]].
Definition dpar226 : list gparam := [P 1 "Enable/Disable ALL ON/OFF" 1 [V (-1) (-1) "ALL ON active / ALL OFF active"; V 0 0 "ALL ON disabled / ALL OFF disabled"; V 1 1 "ALL ON disabled / ALL OFF active"; V 2 2 "ALL ON active / ALL OFF disabled"]; P 6 "Separation of association sending (key 1)" 1 [V 0 0 "Map status to all devices in group 1"; V 1 1 "Map OFF status to all devices in group 1, Double click on key 1 will s"; V 2 2 "Map OFF status to all devices in group 1, Double click on key 1 will s"]; P 7 "Control key #2 behaviour" 1 [V 0 0 "Device status is not checked"; V 1 1 "Device status is checked"]; P 8 "Dimming step at automatic control" 1 [V 1 99 ""]; P 9 "Time of MANUALLY moving between the extreme dimming values" 1 [V 1 255 ""]; P 10 "Time of AUTOMATIC moving between the extreme dimming values" 1 [V 0 255 ""]; P 11 "Dimming step at manual control" 1 [V 1 99 ""]; P 12 "Maximum dimmer level control" 1 [V 2 99 ""]; P 13 "Minimum dimmer level control" 1 [V 0 255 ""]; P 14 "Inputs Button/Switch configuration" 1 [V 0 0 "Mono-stable input (button)"; V 1 1 "Bi-stable input (switch)"]; P 15 "Parm 15" 1 [V 0 0 "Disable double click"; V 1 1 "Enable double click"]; P 16 "Saving state before power failure" 1 [V 0 0 "State NOT saved at power failure, all outputs are set to OFF upon powe"; V 1 1 "State saved at power failure, all outputs are set to previous state up"]; P 17 "3-way switch" 1 [V 0 0 "Disable"; V 1 1 "Enable"]; P 18 "Synchronizing light level for associated devices" 1 [V 0 0 "Disable"; V 1 1 "Enable"]; P 19 "Change [On-Off] bi-stable keys" 1 [V 0 0 "Device changes status on key status change"; V 1 1 "Device status depends on key status; ON when the key is ON, OFF when t"]; P 20 "Parm 20" 1 [V 100 170 ""]; P 30 "Relay 1: Response to General Alarm" 1 [V 0 0 "DEACTIVATION - no response to alarm frames"; V 1 1 "ALARM RELAY ON - relay will turn ON upon receipt of alarm frame"; V 2 2 "ALARM RELAY OFF - relay will turn OFF upon receipt of alarm frame"; V 3 3 "ALARM FLASHING - relay will turn ON and OFF periodically (see param.39"]; P 39 "ALARM FLASHING alarm time" 2 [V 0 65535 ""]].
Definition dpar227 : list gparam := [P 1 "Minimum brightness level" 1 [V 1 98 ""]; P 2 "Maximum brightness level" 1 [V 1 99 ""]; P 3 "Incandescence level of dimmable compact fluorescent lamps" 1 [V 1 99 ""]; P 4 "Incandescence time of dimmable compact fluorescent lamps" 2 [V 0 255 ""]; P 5 "Dimming Step at Automatic Control" 1 [V 1 99 ""]; P 6 "Dimming Step Timing at Automatic Control" 2 [V 1 255 ""]; P 7 "Dimming Step at Manual Control" 1 [V 1 99 ""]; P 8 "Dimming Step Timing at Manual Control" 2 [V 1 255 ""]; P 9 "Saving state before power failure" 1 [V 0 0 "State NOT saved at power failure, all outputs are set to OFF upon powe"; V 1 1 "State saved at power failure, all outputs are set to previous state up"]; P 10 "Timer functionality (auto - off). 0 disables the function" 2 [V 0 32767 ""]; P 11 "ALL ON/ALL OFF function" 2 [V 0 0 "ALL ON not active, ALL OFF not active"; V 1 1 "ALL ON not active, ALL OFF active"; V 2 2 "ALL ON active, ALL OFF not active"; V 255 255 "ALL ON active, ALL OFF active"]; P 13 "Force auto-calibration" 1 [V 0 0 "readout"; V 1 1 "force auto-calibration of the load without Fibaro Bypass"; V 2 2 "force auto-calibration of the load with Fibaro Bypass"]; P 14 "Auto-calibration status (read-only parameter)" 1 [V 0 0 "calibration procedure not performed or Dimmer operates on manual setti"; V 1 1 "Dimmer operates on auto-calibration settings"]; P 15 "Burnt out bulb detection" 1 [V 0 99 ""]; P 16 "Time delay of a burnt out bulb (parameter 15) or overload (parameter 39) detection" 2 [V 0 255 ""]; P 19 "Forced switch on brightness level" 1 [V 0 99 ""]; P 20 "Inputs Button/Switch configuration" 1 [V 0 0 "Mono-stable input (button)"; V 1 1 "Bi-stable input (switch)"; V 2 2 "Roller blind switch (UP / DOWN)"]; P 21 "Value sent to associated devices on single click" 1 [V 0 0 "0xFF value is sent, which will set associated devices to their last sa"; V 1 1 "current Dimmer 2 state is sent, which will synchronize brightness leve"]; P 22 "Change [On-Off] bi-stable keys" 1 [V 0 0 "Device changes status on key status change"; V 1 1 "Device status depends on key status; ON when the key is ON, OFF when t"]; P 23 "Double click option" 1 [V 0 0 "Disable double click"; V 1 1 "Enable double click"]; P 24 "Command frames sent in 2nd and 3rd association groups (S1 associations)" 1 [V 0 0 "all actions send to association groups"; V 1 1 "do not send when switching ON (single click)"; V 2 2 "do not send when switching OFF (single click)"; V 4 4 "do not send when changing dimming level (holding and releasing)"; V 8 8 "do not send on double click"; V 16 16 "send 0xFF value on double click"]; P 25 "Command frames sent in 4th and 5th association groups (S2associations)" 1 [V 0 0 "all actions send to association groups"; V 1 1 "do not send when switching ON (single click)"; V 2 2 "do not send when switching OFF (single click)"; V 4 4 "do not send when changing dimming level (holding and releasing)"; V 8 8 "do not send on double click"; V 16 16 "send 0xFF value on double click"]; P 26 "The function of 3-way switch" 1 [V 0 0 "3-way switch function for S2 disabled"; V 1 1 "3-way switch function for S2 enabled"]; P 27 "Associations in Z-Wave network security mode" 1 [V 0 0 "all groups (II-V) sent as non-secure"; V 1 1 "2nd group sent as secure"; V 2 2 "3rd group sent as secure"; V 4 4 "4th group sent as secure"; V 8 8 "5th group sent as secure"; V 15 15 "all groups (II-V) sent as secure"]; P 28 "Scene activation functionality" 1 [V 0 0 "Scene functionality deactivated"; V 1 1 "Scene functionality activated"]; P 29 "Switch functionality of S1 and S2" 1 [V 0 0 "standard mode"; V 1 1 "S1 operates as S2, S2 operates as S1"]; P 30 "Load control mode" 1 [V 0 0 "forced leading edge control"; V 1 1 "forced trailing edge control"; V 2 2 "control mode selected automatically (based on auto-calibration)"]; P 31 "Load control mode recognized during auto-calibration" 1 [V 0 0 "leading edge control"; V 1 1 "trailing edge control"]; P 32 "On/Off mode" 1 [V 0 0 "on/off mode disabled (dimming is possible)"; V 1 1 "on/off mode enabled (dimming is not possible)"; V 2 2 "mode selected automatically"]; P 33 "Dimmability of the load (read only)" 1 [V 0 0 "Load recognized as dimmable"; V 1 1 "Load recognized as non-dimmable"]; P 34 "Soft-Start functionality" 1 [V 0 0 "no soft-start"; V 1 1 "short soft-start (0,1s)"; V 2 2 "long soft-start (0,5s)"]; P 35 "Auto-calibration after power on" 1 [V 0 0 "No auto-calibration of the load after power on"; V 1 1 "Auto-calibration performed after first power on"; V 2 2 "Auto-calibration performed after each power on"; V 3 3 "Auto-calibration performed after first power on or after each LOAD ERR"; V 4 4 "Auto-calibration performed after each power on or after each LOAD ERRO"]; P 37 "Behaviour of the Dimmer after overload or surge" 1 [V 0 0 "device permanently disabled until re-enabling by comand or push-button"; V 1 1 "three attempts to turn on the load"]; P 39 "Power limit - OVERLOAD" 2 [V 0 250 ""]; P 40 "General Purpose Alarm" 1 [V 0 0 "No reaction"; V 1 1 "Turn on the load"; V 2 2 "Turn off the load"; V 3 3 "Load blinking"]; P 41 "Water Flooding Alarm" 1 [V 0 0 "No reaction"; V 1 1 "Turn on the load"; V 2 2 "Turn off the load"; V 3 3 "Load blinking"]; P 42 "Smoke, CO or CO2 Alarm" 1 [V 0 0 "No reaction"; V 1 1 "Turn on the load"; V 2 2 "Turn off the load"; V 3 3 "Load blinking"]; P 43 "Temperature Alarm" 1 [V 0 0 "No reaction"; V 1 1 "Turn on the load"; V 2 2 "Turn off the load"; V 3 3 "Load blinking"]; P 44 "Time of alarm state" 2 [V 1 32767 ""]; P 45 "OVERLOAD alarm report" 1 [V 0 0 "No reaction"; V 1 1 "Send an alarm frame"]; P 46 "LOAD ERROR alarm report" 1 [V 0 0 "No reaction"; V 1 1 "Send an alarm frame"]; P 47 "OVERCURRENT alarm report" 1 [V 0 0 "No reaction"; V 1 1 "Send an alarm frame"]; P 48 "SURGE alarm report" 1 [V 0 0 "No reaction"; V 1 1 "Send an alarm frame"]; P 49 "OVERHEAT (critical temperature) and VOLTAGE DROP (low voltage) alarm report" 1 [V 0 0 "No reaction"; V 1 1 "Send an alarm frame"]; P 50 "Active power reports" 1 [V 0 100 ""]; P 52 "Periodic active power and energy reports" 2 [V 0 32767 ""]; P 53 "Energy reports" 2 [V 1 255 ""]; P 54 "Self-measurement" 1 [V 0 0 "Self-measurement inactive"; V 1 1 "Self-measurement active"]; P 58 "Method of calculating the active power" 1 [V 0 0 "measurement based on the standard algorithm"; V 1 1 "approximation based on the calibration data"; V 2 2 "approximation based on the control angle"]; P 59 "Approximated power at the maximum brightness level" 2 [V 0 500 ""]].
Definition dpar228 : list gparam := [P 1 "Minimum brightness level" 1 [V 1 98 ""]; P 2 "Maximum brightness level" 1 [V 1 99 ""]; P 3 "Incandescence level of dimmable compact fluorescent lamps" 1 [V 1 99 ""]; P 4 "Incandescence time of dimmable compact fluorescent lamps" 2 [V 0 255 ""]; P 5 "Dimming Step at Automatic Control" 1 [V 1 99 ""]; P 6 "Dimming Step Timing at Automatic Control" 2 [V 1 255 ""]; P 7 "Dimming Step at Manual Control" 1 [V 1 99 ""]; P 8 "Dimming Step Timing at Manual Control" 2 [V 1 255 ""]; P 9 "Saving state before power failure" 1 [V 0 0 "State NOT saved at power failure, all outputs are set to OFF upon powe"; V 1 1 "State saved at power failure, all outputs are set to previous state up"]; P 10 "Timer functionality (auto - off). 0 disables the function" 2 [V 0 32767 ""]; P 11 "ALL ON/ALL OFF function" 2 [V 0 0 "ALL ON not active, ALL OFF not active"; V 1 1 "ALL ON not active, ALL OFF active"; V 2 2 "ALL ON active, ALL OFF not active"; V 255 255 "ALL ON active, ALL OFF active"]; P 13 "Force auto-calibration" 1 [V 0 0 "readout"; V 1 1 "force auto-calibration of the load without Fibaro Bypass"; V 2 2 "force auto-calibration of the load with Fibaro Bypass"]; P 14 "Auto-calibration status (read-only parameter)" 1 [V 0 0 "calibration procedure not performed or Dimmer operates on manual setti"; V 1 1 "Dimmer operates on auto-calibration settings"]; P 15 "Burnt out bulb detection" 1 [V 0 99 ""]; P 16 "Time delay of a burnt out bulb (parameter 15) or overload (parameter 39) detection" 2 [V 0 255 ""]; P 19 "Forced switch on brightness level" 1 [V 0 99 ""]; P 20 "Inputs Button/Switch configuration" 1 [V 0 0 "Mono-stable input (button)"; V 1 1 "Bi-stable input (switch)"; V 2 2 "Roller blind switch (UP / DOWN)"]; P 21 "Value sent to associated devices on single click" 1 [V 0 0 "0xFF value is sent, which will set associated devices to their last sa"; V 1 1 "current Dimmer 2 state is sent, which will synchronize brightness leve"]; P 22 "Change [On-Off] bi-stable keys" 1 [V 0 0 "Device changes status on key status change"; V 1 1 "Device status depends on key status; ON when the key is ON, OFF when t"]; P 23 "Double click option" 1 [V 0 0 "Disable double click"; V 1 1 "Enable double click"]; P 24 "Command frames sent in 2nd and 3rd association groups (S1 associations)" 1 [V 0 0 "all actions send to association groups"; V 1 1 "do not send when switching ON (single click)"; V 2 2 "do not send when switching OFF (single click)"; V 4 4 "do not send when changing dimming level (holding and releasing)"; V 8 8 "do not send on double click"; V 16 16 "send 0xFF value on double click"]; P 25 "Command frames sent in 4th and 5th association groups (S2associations)" 1 [V 0 0 "all actions send to association groups"; V 1 1 "do not send when switching ON (single click)"; V 2 2 "do not send when switching OFF (single click)"; V 4 4 "do not send when changing dimming level (holding and releasing)"; V 8 8 "do not send on double click"; V 16 16 "send 0xFF value on double click"]; P 26 "The function of 3-way switch" 1 [V 0 0 "3-way switch function for S2 disabled"; V 1 1 "3-way switch function for S2 enabled"]; P 27 "Associations in Z-Wave network security mode" 1 [V 0 0 "all groups (II-V) sent as non-secure"; V 1 1 "2nd group sent as secure"; V 2 2 "3rd group sent as secure"; V 4 4 "4th group sent as secure"; V 8 8 "5th group sent as secure"; V 15 15 "all groups (II-V) sent as secure"]; P 28 "Scene activation functionality" 1 [V 0 0 "Scene functionality deactivated"; V 1 1 "Scene functionality activated"]; P 29 "Switch functionality of S1 and S2" 1 [V 0 0 "standard mode"; V 1 1 "S1 operates as S2, S2 operates as S1"]; P 30 "Load control mode" 1 [V 0 0 "forced leading edge control"; V 1 1 "forced trailing edge control"; V 2 2 "control mode selected automatically (based on auto-calibration)"]; P 31 "Load control mode recognized during auto-calibration" 1 [V 0 0 "leading edge control"; V 1 1 "trailing edge control"]; P 32 "On/Off mode" 1 [V 0 0 "on/off mode disabled (dimming is possible)"; V 1 1 "on/off mode enabled (dimming is not possible)"; V 2 2 "mode selected automatically"]; P 33 "Dimmability of the load (read only)" 1 [V 0 0 "Load recognized as dimmable"; V 1 1 "Load recognized as non-dimmable"]; P 34 "Soft-Start functionality" 1 [V 0 0 "no soft-start"; V 1 1 "short soft-start (0,1s)"; V 2 2 "long soft-start (0,5s)"]; P 35 "Auto-calibration after power on" 1 [V 0 0 "No auto-calibration of the load after power on"; V 1 1 "Auto-calibration performed after first power on"; V 2 2 "Auto-calibration performed after each power on"; V 3 3 "Auto-calibration performed after first power on or after each LOAD ERR"; V 4 4 "Auto-calibration performed after each power on or after each LOAD ERRO"]; P 37 "Behaviour of the Dimmer after overload or surge" 1 [V 0 0 "device permanently disabled until re-enabling by comand or push-button"; V 1 1 "three attempts to turn on the load"]; P 39 "Power limit - OVERLOAD" 2 [V 0 250 ""]; P 40 "General Purpose Alarm" 1 [V 0 0 "No reaction"; V 1 1 "Turn on the load"; V 2 2 "Turn off the load"; V 3 3 "Load blinking"]; P 41 "Water Flooding Alarm" 1 [V 0 0 "No reaction"; V 1 1 "Turn on the load"; V 2 2 "Turn off the load"; V 3 3 "Load blinking"]; P 42 "Smoke, CO or CO2 Alarm" 1 [V 0 0 "No reaction"; V 1 1 "Turn on the load"; V 2 2 "Turn off the load"; V 3 3 "Load blinking"]; P 43 "Temperature Alarm" 1 [V 0 0 "No reaction"; V 1 1 "Turn on the load"; V 2 2 "Turn off the load"; V 3 3 "Load blinking"]; P 44 "Time of alarm state" 2 [V 1 32767 ""]; P 45 "OVERLOAD alarm report" 1 [V 0 0 "No reaction"; V 1 1 "Send an alarm frame"]; P 46 "LOAD ERROR alarm report" 1 [V 0 0 "No reaction"; V 1 1 "Send an alarm frame"]; P 47 "OVERCURRENT alarm report" 1 [V 0 0 "No reaction"; V 1 1 "Send an alarm frame"]; P 48 "SURGE alarm report" 1 [V 0 0 "No reaction"; V 1 1 "Send an alarm frame"]; P 49 "OVERHEAT (critical temperature) and VOLTAGE DROP (low voltage) alarm report" 1 [V 0 0 "No reaction"; V 1 1 "Send an alarm frame"]; P 50 "Active power reports" 1 [V 0 100 ""]; P 52 "Periodic active power and energy reports" 2 [V 0 32767 ""]; P 53 "Energy reports" 2 [V 1 255 ""]; P 54 "Self-measurement" 1 [V 0 0 "Self-measurement inactive"; V 1 1 "Self-measurement active"]; P 58 "Method of calculating the active power" 1 [V 0 0 "measurement based on the standard algorithm"; V 1 1 "approximation based on the calibration data"; V 2 2 "approximation based on the control angle"]; P 59 "Approximated power at the maximum brightness level" 2 [V 0 500 ""]].
Definition dpar229 : list gparam := [P 1 "Minimum brightness level" 1 [V 1 98 ""]; P 2 "Maximum brightness level" 1 [V 1 99 ""]; P 3 "Incandescence level of dimmable compact fluorescent lamps" 1 [V 1 99 ""]; P 4 "Incandescence time of dimmable compact fluorescent lamps" 2 [V 0 255 ""]; P 5 "Dimming Step at Automatic Control" 1 [V 1 99 ""]; P 6 "Dimming Step Timing at Automatic Control" 2 [V 1 255 ""]; P 7 "Dimming Step at Manual Control" 1 [V 1 99 ""]; P 8 "Dimming Step Timing at Manual Control" 2 [V 1 255 ""]; P 9 "Saving state before power failure" 1 [V 0 0 "State NOT saved at power failure, all outputs are set to OFF upon powe"; V 1 1 "State saved at power failure, all outputs are set to previous state up"]; P 10 "Timer functionality (auto - off). 0 disables the function" 2 [V 0 32767 ""]; P 11 "ALL ON/ALL OFF function" 2 [V 0 0 "ALL ON not active, ALL OFF not active"; V 1 1 "ALL ON not active, ALL OFF active"; V 2 2 "ALL ON active, ALL OFF not active"; V 255 255 "ALL ON active, ALL OFF active"]; P 13 "Force auto-calibration" 1 [V 0 0 "readout"; V 1 1 "force auto-calibration of the load without Fibaro Bypass"; V 2 2 "force auto-calibration of the load with Fibaro Bypass"]; P 14 "Auto-calibration status (read-only parameter)" 1 [V 0 0 "calibration procedure not performed or Dimmer operates on manual setti"; V 1 1 "Dimmer operates on auto-calibration settings"]; P 15 "Burnt out bulb detection" 1 [V 0 99 ""]; P 16 "Time delay of a burnt out bulb (parameter 15) or overload (parameter 39) detection" 2 [V 0 255 ""]; P 19 "Forced switch on brightness level" 1 [V 0 99 ""]; P 20 "Inputs Button/Switch configuration" 1 [V 0 0 "Mono-stable input (button)"; V 1 1 "Bi-stable input (switch)"; V 2 2 "Roller blind switch (UP / DOWN)"]; P 21 "Value sent to associated devices on single click" 1 [V 0 0 "0xFF value is sent, which will set associated devices to their last sa"; V 1 1 "current Dimmer 2 state is sent, which will synchronize brightness leve"]; P 22 "Change [On-Off] bi-stable keys" 1 [V 0 0 "Device changes status on key status change"; V 1 1 "Device status depends on key status; ON when the key is ON, OFF when t"]; P 23 "Double click option" 1 [V 0 0 "Disable double click"; V 1 1 "Enable double click"]; P 24 "Command frames sent in 2nd and 3rd association groups (S1 associations)" 1 [V 0 0 "all actions send to association groups"; V 1 1 "do not send when switching ON (single click)"; V 2 2 "do not send when switching OFF (single click)"; V 4 4 "do not send when changing dimming level (holding and releasing)"; V 8 8 "do not send on double click"; V 16 16 "send 0xFF value on double click"]; P 25 "Command frames sent in 4th and 5th association groups (S2associations)" 1 [V 0 0 "all actions send to association groups"; V 1 1 "do not send when switching ON (single click)"; V 2 2 "do not send when switching OFF (single click)"; V 4 4 "do not send when changing dimming level (holding and releasing)"; V 8 8 "do not send on double click"; V 16 16 "send 0xFF value on double click"]; P 26 "The function of 3-way switch" 1 [V 0 0 "3-way switch function for S2 disabled"; V 1 1 "3-way switch function for S2 enabled"]; P 27 "Associations in Z-Wave network security mode" 1 [V 0 0 "all groups (II-V) sent as non-secure"; V 1 1 "2nd group sent as secure"; V 2 2 "3rd group sent as secure"; V 4 4 "4th group sent as secure"; V 8 8 "5th group sent as secure"; V 15 15 "all groups (II-V) sent as secure"]; P 28 "Scene activation functionality" 1 [V 0 0 "Scene functionality deactivated"; V 1 1 "Scene functionality activated"]; P 29 "Switch functionality of S1 and S2" 1 [V 0 0 "standard mode"; V 1 1 "S1 operates as S2, S2 operates as S1"]; P 30 "Load control mode" 1 [V 0 0 "forced leading edge control"; V 1 1 "forced trailing edge control"; V 2 2 "control mode selected automatically (based on auto-calibration)"]; P 31 "Load control mode recognized during auto-calibration" 1 [V 0 0 "leading edge control"; V 1 1 "trailing edge control"]; P 32 "On/Off mode" 1 [V 0 0 "on/off mode disabled (dimming is possible)"; V 1 1 "on/off mode enabled (dimming is not possible)"; V 2 2 "mode selected automatically"]; P 33 "Dimmability of the load (read only)" 1 [V 0 0 "Load recognized as dimmable"; V 1 1 "Load recognized as non-dimmable"]; P 34 "Soft-Start functionality" 1 [V 0 0 "no soft-start"; V 1 1 "short soft-start (0,1s)"; V 2 2 "long soft-start (0,5s)"]; P 35 "Auto-calibration after power on" 1 [V 0 0 "No auto-calibration of the load after power on"; V 1 1 "Auto-calibration performed after first power on"; V 2 2 "Auto-calibration performed after each power on"; V 3 3 "Auto-calibration performed after first power on or after each LOAD ERR"; V 4 4 "Auto-calibration performed after each power on or after each LOAD ERRO"]; P 37 "Behaviour of the Dimmer after overload or surge" 1 [V 0 0 "device permanently disabled until re-enabling by comand or push-button"; V 1 1 "three attempts to turn on the load"]; P 39 "Power limit - OVERLOAD" 2 [V 0 250 ""]; P 40 "General Purpose Alarm" 1 [V 0 0 "No reaction"; V 1 1 "Turn on the load"; V 2 2 "Turn off the load"; V 3 3 "Load blinking"]; P 41 "Water Flooding Alarm" 1 [V 0 0 "No reaction"; V 1 1 "Turn on the load"; V 2 2 "Turn off the load"; V 3 3 "Load blinking"]; P 42 "Smoke, CO or CO2 Alarm" 1 [V 0 0 "No reaction"; V 1 1 "Turn on the load"; V 2 2 "Turn off the load"; V 3 3 "Load blinking"]; P 43 "Temperature Alarm" 1 [V 0 0 "No reaction"; V 1 1 "Turn on the load"; V 2 2 "Turn off the load"; V 3 3 "Load blinking"]; P 44 "Time of alarm state" 2 [V 1 32767 ""]; P 45 "OVERLOAD alarm report" 1 [V 0 0 "No reaction"; V 1 1 "Send an alarm frame"]; P 46 "LOAD ERROR alarm report" 1 [V 0 0 "No reaction"; V 1 1 "Send an alarm frame"]; P 47 "OVERCURRENT alarm report" 1 [V 0 0 "No reaction"; V 1 1 "Send an alarm frame"]; P 48 "SURGE alarm report" 1 [V 0 0 "No reaction"; V 1 1 "Send an alarm frame"]; P 49 "OVERHEAT (critical temperature) and VOLTAGE DROP (low voltage) alarm report" 1 [V 0 0 "No reaction"; V 1 1 "Send an alarm frame"]; P 50 "Active power reports" 1 [V 0 100 ""]; P 52 "Periodic active power and energy reports" 2 [V 0 32767 ""]; P 53 "Energy reports" 2 [V 1 255 ""]; P 54 "Self-measurement" 1 [V 0 0 "Self-measurement inactive"; V 1 1 "Self-measurement active"]; P 58 "Method of calculating the active power" 1 [V 0 0 "measurement based on the standard algorithm"; V 1 1 "approximation based on the calibration data"; V 2 2 "approximation based on the control angle"]; P 59 "Approximated power at the maximum brightness level" 2 [V 0 500 ""]].
Definition dpar230 : list gparam := [P 1 "Minimum brightness level" 1 [V 1 98 ""]; P 2 "Maximum brightness level" 1 [V 1 99 ""]; P 3 "Incandescence level of dimmable compact fluorescent lamps" 1 [V 1 99 ""]; P 4 "Incandescence time of dimmable compact fluorescent lamps" 2 [V 0 255 ""]; P 5 "Dimming Step at Automatic Control" 1 [V 1 99 ""]; P 6 "Dimming Step Timing at Automatic Control" 2 [V 1 255 ""]; P 7 "Dimming Step at Manual Control" 1 [V 1 99 ""]; P 8 "Dimming Step Timing at Manual Control" 2 [V 1 255 ""]; P 9 "Saving state before power failure" 1 [V 0 0 "State NOT saved at power failure, all outputs are set to OFF upon powe"; V 1 1 "State saved at power failure, all outputs are set to previous state up"]; P 10 "Timer functionality (auto - off). 0 disables the function" 2 [V 0 32767 ""]; P 11 "ALL ON/ALL OFF function" 2 [V 0 0 "ALL ON not active, ALL OFF not active"; V 1 1 "ALL ON not active, ALL OFF active"; V 2 2 "ALL ON active, ALL OFF not active"; V 255 255 "ALL ON active, ALL OFF active"]; P 13 "Force auto-calibration" 1 [V 0 0 "readout"; V 1 1 "force auto-calibration of the load without Fibaro Bypass"; V 2 2 "force auto-calibration of the load with Fibaro Bypass"]; P 14 "Auto-calibration status (read-only parameter)" 1 [V 0 0 "calibration procedure not performed or Dimmer operates on manual setti"; V 1 1 "Dimmer operates on auto-calibration settings"]; P 15 "Burnt out bulb detection" 1 [V 0 99 ""]; P 16 "Time delay of a burnt out bulb (parameter 15) or overload (parameter 39) detection" 2 [V 0 255 ""]; P 19 "Forced switch on brightness level" 1 [V 0 99 ""]; P 20 "Inputs Button/Switch configuration" 1 [V 0 0 "Mono-stable input (button)"; V 1 1 "Bi-stable input (switch)"; V 2 2 "Roller blind switch (UP / DOWN)"]; P 21 "Value sent to associated devices on single click" 1 [V 0 0 "0xFF value is sent, which will set associated devices to their last sa"; V 1 1 "current Dimmer 2 state is sent, which will synchronize brightness leve"]; P 22 "Change [On-Off] bi-stable keys" 1 [V 0 0 "Device changes status on key status change"; V 1 1 "Device status depends on key status; ON when the key is ON, OFF when t"]; P 23 "Double click option" 1 [V 0 0 "Disable double click"; V 1 1 "Enable double click"]; P 24 "Command frames sent in 2nd and 3rd association groups (S1 associations)" 1 [V 0 0 "all actions send to association groups"; V 1 1 "do not send when switching ON (single click)"; V 2 2 "do not send when switching OFF (single click)"; V 4 4 "do not send when changing dimming level (holding and releasing)"; V 8 8 "do not send on double click"; V 16 16 "send 0xFF value on double click"]; P 25 "Command frames sent in 4th and 5th association groups (S2associations)" 1 [V 0 0 "all actions send to association groups"; V 1 1 "do not send when switching ON (single click)"; V 2 2 "do not send when switching OFF (single click)"; V 4 4 "do not send when changing dimming level (holding and releasing)"; V 8 8 "do not send on double click"; V 16 16 "send 0xFF value on double click"]; P 26 "The function of 3-way switch" 1 [V 0 0 "3-way switch function for S2 disabled"; V 1 1 "3-way switch function for S2 enabled"]; P 27 "Associations in Z-Wave network security mode" 1 [V 0 0 "all groups (II-V) sent as non-secure"; V 1 1 "2nd group sent as secure"; V 2 2 "3rd group sent as secure"; V 4 4 "4th group sent as secure"; V 8 8 "5th group sent as secure"; V 15 15 "all groups (II-V) sent as secure"]; P 28 "Scene activation functionality" 1 [V 0 0 "Scene functionality deactivated"; V 1 1 "Scene functionality activated"]; P 29 "Switch functionality of S1 and S2" 1 [V 0 0 "standard mode"; V 1 1 "S1 operates as S2, S2 operates as S1"]; P 30 "Load control mode" 1 [V 0 0 "forced leading edge control"; V 1 1 "forced trailing edge control"; V 2 2 "control mode selected automatically (based on auto-calibration)"]; P 31 "Load control mode recognized during auto-calibration" 1 [V 0 0 "leading edge control"; V 1 1 "trailing edge control"]; P 32 "On/Off mode" 1 [V 0 0 "on/off mode disabled (dimming is possible)"; V 1 1 "on/off mode enabled (dimming is not possible)"; V 2 2 "mode selected automatically"]; P 33 "Dimmability of the load (read only)" 1 [V 0 0 "Load recognized as dimmable"; V 1 1 "Load recognized as non-dimmable"]; P 34 "Soft-Start functionality" 1 [V 0 0 "no soft-start"; V 1 1 "short soft-start (0,1s)"; V 2 2 "long soft-start (0,5s)"]; P 35 "Auto-calibration after power on" 1 [V 0 0 "No auto-calibration of the load after power on"; V 1 1 "Auto-calibration performed after first power on"; V 2 2 "Auto-calibration performed after each power on"; V 3 3 "Auto-calibration performed after first power on or after each LOAD ERR"; V 4 4 "Auto-calibration performed after each power on or after each LOAD ERRO"]; P 37 "Behaviour of the Dimmer after overload or surge" 1 [V 0 0 "device permanently disabled until re-enabling by comand or push-button"; V 1 1 "three attempts to turn on the load"]; P 39 "Power limit - OVERLOAD" 2 [V 0 250 ""]; P 40 "General Purpose Alarm" 1 [V 0 0 "No reaction"; V 1 1 "Turn on the load"; V 2 2 "Turn off the load"; V 3 3 "Load blinking"]; P 41 "Water Flooding Alarm" 1 [V 0 0 "No reaction"; V 1 1 "Turn on the load"; V 2 2 "Turn off the load"; V 3 3 "Load blinking"]; P 42 "Smoke, CO or CO2 Alarm" 1 [V 0 0 "No reaction"; V 1 1 "Turn on the load"; V 2 2 "Turn off the load"; V 3 3 "Load blinking"]; P 43 "Temperature Alarm" 1 [V 0 0 "No reaction"; V 1 1 "Turn on the load"; V 2 2 "Turn off the load"; V 3 3 "Load blinking"]; P 44 "Time of alarm state" 2 [V 1 32767 ""]; P 45 "OVERLOAD alarm report" 1 [V 0 0 "No reaction"; V 1 1 "Send an alarm frame"]; P 46 "LOAD ERROR alarm report" 1 [V 0 0 "No reaction"; V 1 1 "Send an alarm frame"]; P 47 "OVERCURRENT alarm report" 1 [V 0 0 "No reaction"; V 1 1 "Send an alarm frame"]; P 48 "SURGE alarm report" 1 [V 0 0 "No reaction"; V 1 1 "Send an alarm frame"]; P 49 "OVERHEAT (critical temperature) and VOLTAGE DROP (low voltage) alarm report" 1 [V 0 0 "No reaction"; V 1 1 "Send an alarm frame"]; P 50 "Active power reports" 1 [V 0 100 ""]; P 52 "Periodic active power and energy reports" 2 [V 0 32767 ""]; P 53 "Energy reports" 2 [V 1 255 ""]; P 54 "Self-measurement" 1 [V 0 0 "Self-measurement inactive"; V 1 1 "Self-measurement active"]; P 58 "Method of calculating the active power" 1 [V 0 0 "measurement based on the standard algorithm"; V 1 1 "approximation based on the calibration data"; V 2 2 "approximation based on the control angle"]; P 59 "Approximated power at the maximum brightness level" 2 [V 0 500 ""]].
Definition dpar231 : list gparam := [P 1 "Alarm Cancellation Delay" 2 [V 0 3600 ""]; P 2 "Acoustic and visual signals On / Off in case of flooding" 1 [V 0 0 "Acoustic and visual alarms inactive"; V 1 1 "Acoustic alarm inactive, visual alarm active"; V 2 2 "Acoustic alarm active, visual alarm inactive"; V 3 3 "Acoustic and visual alarms active"]; P 5 "Type of alarm frame sent to 1-st association group (FLOOD)" 1 [V (-127) (-127) "BASIC_SET"; V 0 0 "ALARM WATER"]; P 7 "Forced Level of Dimming group 1" 1 [V 1 255 ""]; P 9 "Alarm cancelling or turning a device off (Basic) command frame deactivation" 1 [V 0 0 "Alarm (flooding) cancellation inactive"; V 1 1 "Alarm (flooding) cancellation active"]; P 10 "Interval between successive readings of temperature sensors" 2 [V 1 32767 ""]; P 12 "Insensitiveness to temperature changes." 2 [V 0 1000 ""]; P 13 "Alarm BROADCAST" 1 [V 0 0 "Broadcast inactive"; V 1 1 "Flood broadcast mode active, Tamper broadcast mode inactive"; V 2 2 "Tamper broadcast mode inactive, Tamper broadcast mode active"; V 3 3 "Flood and Tamper broadcast mode active"]; P 50 "Low temperature alarm threshold" 2 [V (-10000) 10000 ""]; P 51 "High temperature alarm threshold" 2 [V (-10000) 10000 ""]; P 61 "Low temperature alarm indicator colour" 4 [V 0 16777215 ""]; P 62 "High temperature alarm indicator colour" 4 [V 0 16777215 ""]; P 63 "Managing a LED indicator under standard operation" 1 [V 0 0 "LED indicator doesn’t indicate the temperature"; V 1 1 "LED indicator indicates the temperature (blink) every Temperature Meas"; V 2 2 "LED indicator indicates the temperature continuously, only in constant"]; P 73 "Temperature measurement compensation" 2 [V (-10000) 10000 ""]; P 74 "Alarm frame sent to 2-nd Association Group activation" 1 [V 0 0 "Tamper alarms inactive"; V 1 1 "Button tamper alarm active"; V 2 2 "Movement tamper alarm active"; V 3 3 "Button and movement tampers alarm active"]; P 75 "Visual and audible alarms duration" 2 [V 0 65535 ""]; P 76 "Visual and audible alarms duration" 2 [V 0 65535 ""]; P 77 "Flood sensor functionality turned off" 1 [V 0 0 "Default flood sensor operation (flood detection, reactions)"; V 1 1 "Built in flood sensor TURNED OFF (doesn’t change its state in the main"]].
Definition dpar232 : list gparam := [P 1 "Alarm Cancellation Delay" 2 [V 0 3600 ""]; P 2 "Acoustic and visual signals On / Off in case of flooding" 1 [V 0 0 "Acoustic and visual alarms inactive"; V 1 1 "Acoustic alarm inactive, visual alarm active"; V 2 2 "Acoustic alarm active, visual alarm inactive"; V 3 3 "Acoustic and visual alarms active"]; P 5 "Type of alarm frame sent to 1-st association group (FLOOD)" 1 [V (-127) (-127) "BASIC_SET"; V 0 0 "ALARM WATER"]; P 7 "Forced Level of Dimming group 1" 1 [V 1 255 ""]; P 9 "Alarm cancelling or turning a device off (Basic) command frame deactivation" 1 [V 0 0 "Alarm (flooding) cancellation inactive"; V 1 1 "Alarm (flooding) cancellation active"]; P 10 "Interval between successive readings of temperature sensors" 2 [V 1 32767 ""]; P 12 "Insensitiveness to temperature changes." 2 [V 0 1000 ""]; P 13 "Alarm BROADCAST" 1 [V 0 0 "Broadcast inactive"; V 1 1 "Flood broadcast mode active, Tamper broadcast mode inactive"; V 2 2 "Tamper broadcast mode inactive, Tamper broadcast mode active"; V 3 3 "Flood and Tamper broadcast mode active"]; P 50 "Low temperature alarm threshold" 2 [V (-10000) 10000 ""]; P 51 "High temperature alarm threshold" 2 [V (-10000) 10000 ""]; P 61 "Low temperature alarm indicator colour" 4 [V 0 16777215 ""]; P 62 "High temperature alarm indicator colour" 4 [V 0 16777215 ""]; P 63 "Managing a LED indicator under standard operation" 1 [V 0 0 "LED indicator doesn’t indicate the temperature"; V 1 1 "LED indicator indicates the temperature (blink) every Temperature Meas"; V 2 2 "LED indicator indicates the temperature continuously, only in constant"]; P 73 "Temperature measurement compensation" 2 [V (-10000) 10000 ""]; P 74 "Alarm frame sent to 2-nd Association Group activation" 1 [V 0 0 "Tamper alarms inactive"; V 1 1 "Button tamper alarm active"; V 2 2 "Movement tamper alarm active"; V 3 3 "Button and movement tampers alarm active"]; P 75 "Visual and audible alarms duration" 2 [V 0 65535 ""]; P 76 "Visual and audible alarms duration" 2 [V 0 65535 ""]; P 77 "Flood sensor functionality turned off" 1 [V 0 0 "Default flood sensor operation (flood detection, reactions)"; V 1 1 "Built in flood sensor TURNED OFF (doesn’t change its state in the main"]].
Definition dpar233 : list gparam := [P 1 "Alarm Cancellation Delay" 2 [V 0 3600 ""]; P 2 "Acoustic and visual signals On / Off in case of flooding" 1 [V 0 0 "Acoustic and visual alarms inactive"; V 1 1 "Acoustic alarm inactive, visual alarm active"; V 2 2 "Acoustic alarm active, visual alarm inactive"; V 3 3 "Acoustic and visual alarms active"]; P 5 "Type of alarm frame sent to 1-st association group (FLOOD)" 1 [V (-127) (-127) "BASIC_SET"; V 0 0 "ALARM WATER"]; P 7 "Forced Level of Dimming group 1" 1 [V 1 255 ""]; P 9 "Alarm cancelling or turning a device off (Basic) command frame deactivation" 1 [V 0 0 "Alarm (flooding) cancellation inactive"; V 1 1 "Alarm (flooding) cancellation active"]; P 10 "Interval between successive readings of temperature sensors" 2 [V 1 32767 ""]; P 12 "Insensitiveness to temperature changes." 2 [V 0 1000 ""]; P 13 "Alarm BROADCAST" 1 [V 0 0 "Broadcast inactive"; V 1 1 "Flood broadcast mode active, Tamper broadcast mode inactive"; V 2 2 "Tamper broadcast mode inactive, Tamper broadcast mode active"; V 3 3 "Flood and Tamper broadcast mode active"]; P 50 "Low temperature alarm threshold" 2 [V (-10000) 10000 ""]; P 51 "High temperature alarm threshold" 2 [V (-10000) 10000 ""]; P 61 "Low temperature alarm indicator colour" 4 [V 0 16777215 ""]; P 62 "High temperature alarm indicator colour" 4 [V 0 16777215 ""]; P 63 "Managing a LED indicator under standard operation" 1 [V 0 0 "LED indicator doesn’t indicate the temperature"; V 1 1 "LED indicator indicates the temperature (blink) every Temperature Meas"; V 2 2 "LED indicator indicates the temperature continuously, only in constant"]; P 73 "Temperature measurement compensation" 2 [V (-10000) 10000 ""]; P 74 "Alarm frame sent to 2-nd Association Group activation" 1 [V 0 0 "Tamper alarms inactive"; V 1 1 "Button tamper alarm active"; V 2 2 "Movement tamper alarm active"; V 3 3 "Button and movement tampers alarm active"]; P 75 "Visual and audible alarms duration" 2 [V 0 65535 ""]; P 76 "Visual and audible alarms duration" 2 [V 0 65535 ""]; P 77 "Flood sensor functionality turned off" 1 [V 0 0 "Default flood sensor operation (flood detection, reactions)"; V 1 1 "Built in flood sensor TURNED OFF (doesn’t change its state in the main"]].
Definition dpar234 : list gparam := [P 1 "Alarm cancellation delay" 2 [V 0 3600 ""]; P 2 "Select alarm type (visual/acoustic)" 1 [V 0 0 "Acoustic and visual alarms inactive"; V 1 1 "Acoustic alarm inactive, visual alarm active"; V 2 2 "Acoustic alarm active, visual alarm inactive"; V 3 3 "Acoustic and visual alarms active"]; P 7 "Requested dimming level to 2nd assoc. group" 1 [V 1 255 ""]; P 9 "Device off and alarm cancellations" 1 [V 0 0 "Alarm (flooding) cancellation inactive"; V 1 1 "Alarm (flooding) cancellation active"]; P 10 "Temperature measurement interval" 4 [V 1 65535 ""]; P 12 "Temperature measurement hysteresis" 2 [V 1 1000 ""]; P 50 "Low temperature alarm threshold" 2 [V (-10000) 10000 ""]; P 51 "High temperature alarm threshold" 2 [V (-10000) 10000 ""]; P 61 "Low temperature alarm indicator colour" 4 [V 0 16777215 ""]; P 62 "High temperature alarm indicator colour" 4 [V 0 16777215 ""]; P 63 "Visual temperature indicator" 1 [V 0 0 "Visual indicator does not indicate the temperature"; V 1 1 "Indicator at every temperature measurement and wake up"; V 2 2 "Visual indicator indicates the temperature continuously"]; P 73 "Temperature measurement compensation" 2 [V (-10000) 10000 ""]; P 74 "Alarm frame for movement/tamper" 1 [V 0 0 "Tamper alarm inactive"; V 1 1 "Button tamper alarm active"; V 2 2 "Movement tamper alarm active"; V 3 3 "Button and movement tampers alarm active"]; P 75 "Alarms signalization duration" 4 [V 0 65535 ""]; P 76 "Alarm signalization reactivation period" 4 [V 0 65535 ""]; P 77 "Flood sensor functionality turned off" 1 [V 0 0 "Default flood sensor operation (flood detection, reactions)"; V 1 1 "Built-in flood sensor TURNED OFF"]; P 78 "Associations in Z-Wave network security mode" 1 [V 0 0 "None of the groups are sent as secure"; V 1 1 "2nd group ”Control” sent as secure"; V 2 2 "3rd group ”Alarm” sent as secure"; V 3 3 "4th group ""Tamper” sent as secure"]].
Definition dpar235 : list gparam := [P 1 "Alarm cancellation delay" 2 [V 0 3600 ""]; P 2 "Select alarm type (visual/acoustic)" 1 [V 0 0 "Acoustic and visual alarms inactive"; V 1 1 "Acoustic alarm inactive, visual alarm active"; V 2 2 "Acoustic alarm active, visual alarm inactive"; V 3 3 "Acoustic and visual alarms active"]; P 7 "Requested dimming level to 2nd assoc. group" 1 [V 1 255 ""]; P 9 "Device off and alarm cancellations" 1 [V 0 0 "Alarm (flooding) cancellation inactive"; V 1 1 "Alarm (flooding) cancellation active"]; P 10 "Temperature measurement interval" 4 [V 1 65535 ""]; P 12 "Temperature measurement hysteresis" 2 [V 1 1000 ""]; P 50 "Low temperature alarm threshold" 2 [V (-10000) 10000 ""]; P 51 "High temperature alarm threshold" 2 [V (-10000) 10000 ""]; P 61 "Low temperature alarm indicator colour" 4 [V 0 16777215 ""]; P 62 "High temperature alarm indicator colour" 4 [V 0 16777215 ""]; P 63 "Visual temperature indicator" 1 [V 0 0 "Visual indicator does not indicate the temperature"; V 1 1 "Indicator at every temperature measurement and wake up"; V 2 2 "Visual indicator indicates the temperature continuously"]; P 73 "Temperature measurement compensation" 2 [V (-10000) 10000 ""]; P 74 "Alarm frame for movement/tamper" 1 [V 0 0 "Tamper alarm inactive"; V 1 1 "Button tamper alarm active"; V 2 2 "Movement tamper alarm active"; V 3 3 "Button and movement tampers alarm active"]; P 75 "Alarms signalization duration" 4 [V 0 65535 ""]; P 76 "Alarm signalization reactivation period" 4 [V 0 65535 ""]; P 77 "Flood sensor functionality turned off" 1 [V 0 0 "Default flood sensor operation (flood detection, reactions)"; V 1 1 "Built-in flood sensor TURNED OFF"]; P 78 "Associations in Z-Wave network security mode" 1 [V 0 0 "None of the groups are sent as secure"; V 1 1 "2nd group ”Control” sent as secure"; V 2 2 "3rd group ”Alarm” sent as secure"; V 3 3 "4th group ""Tamper” sent as secure"]].
Definition dpar236 : list gparam := [P 1 "IN1 Alarm Cancellation Delay" 2 [V 0 65535 ""]; P 2 "Status change signalled by LED" 1 [V 0 0 "LED turned Off"; V 1 1 "LED turned On"]; P 3 "Type of input no. 1" 1 [V 0 0 "Normally Open"; V 1 1 "Normally Closed"; V 2 2 "Monostable"; V 3 3 "Bistable"]; P 5 "Type of transmitted control frame for association" 1 [V 0 0 "ALARM GENERIC"; V 1 1 "ALARM SMOKE"; V 2 2 "ALARM CO"; V 3 3 "ALARM CO2"; V 4 4 "ALARM HEAT"; V 5 5 "ALARM WATER"; V 255 255 "BASIC_SET"]; P 7 "Forced Level of Dimming group 1" 1 [V 1 255 ""]; P 9 "Enable/Disable transmission of frame cancelling alarm 	" 1 [V 0 0 "Groups 1 and 2 sent"; V 1 1 "Group 1 sent, Group 2 not sent."; V 2 2 "Group 2 sent, Group 1 not sent."]; P 12 "Sensitivity to temperature changes" 1 [V 0 255 ""]; P 13 "Transmitting the alarm or control frame broadcast" 1 [V 0 0 "IN and TMP Broadcast mode inactive"; V 1 1 "IN broadcast mode active, TMP broadcast mode inactive	"; V 2 2 "IN broadcast mode inactive, TMP broadcast mode active"; V 3 3 "IN and TMP broadcast mode active"]; P 14 "Scene activation" 1 [V 0 0 "Disabled"; V 1 1 "Enabled"]].
Definition dpar237 : list gparam := [P 1 "IN1 Alarm Cancellation Delay" 2 [V 0 65535 ""]; P 2 "Status change signalled by LED" 1 [V 0 0 "LED turned Off"; V 1 1 "LED turned On"]; P 3 "Type of input no. 1" 1 [V 0 0 "Normally Open"; V 1 1 "Normally Closed"; V 2 2 "Monostable"; V 3 3 "Bistable"]; P 5 "Type of transmitted control frame for association" 1 [V 0 0 "ALARM GENERIC"; V 1 1 "ALARM SMOKE"; V 2 2 "ALARM CO"; V 3 3 "ALARM CO2"; V 4 4 "ALARM HEAT"; V 5 5 "ALARM WATER"; V 255 255 "BASIC_SET"]; P 7 "Forced Level of Dimming group 1" 1 [V 1 255 ""]; P 9 "Enable/Disable transmission of frame cancelling alarm 	" 1 [V 0 0 "Groups 1 and 2 sent"; V 1 1 "Group 1 sent, Group 2 not sent."; V 2 2 "Group 2 sent, Group 1 not sent."]; P 12 "Sensitivity to temperature changes" 1 [V 0 255 ""]; P 13 "Transmitting the alarm or control frame broadcast" 1 [V 0 0 "IN and TMP Broadcast mode inactive"; V 1 1 "IN broadcast mode active, TMP broadcast mode inactive	"; V 2 2 "IN broadcast mode inactive, TMP broadcast mode active"; V 3 3 "IN and TMP broadcast mode active"]; P 14 "Scene activation" 1 [V 0 0 "Disabled"; V 1 1 "Enabled"]].
Definition dpar238 : list gparam := [P 1 "IN1 Alarm Cancellation Delay" 2 [V 0 65535 ""]; P 2 "Status change signalled by LED" 1 [V 0 0 "LED turned Off"; V 1 1 "LED turned On"]; P 3 "Type of input no. 1" 1 [V 0 0 "Normally Open"; V 1 1 "Normally Closed"; V 2 2 "Monostable"; V 3 3 "Bistable"]; P 5 "Type of transmitted control frame for association" 1 [V 0 0 "ALARM GENERIC"; V 1 1 "ALARM SMOKE"; V 2 2 "ALARM CO"; V 3 3 "ALARM CO2"; V 4 4 "ALARM HEAT"; V 5 5 "ALARM WATER"; V 255 255 "BASIC_SET"]; P 7 "Forced Level of Dimming group 1" 1 [V 1 255 ""]; P 9 "Enable/Disable transmission of frame cancelling alarm 	" 1 [V 0 0 "Groups 1 and 2 sent"; V 1 1 "Group 1 sent, Group 2 not sent."; V 2 2 "Group 2 sent, Group 1 not sent."]; P 12 "Sensitivity to temperature changes" 1 [V 0 255 ""]; P 13 "Transmitting the alarm or control frame broadcast" 1 [V 0 0 "IN and TMP Broadcast mode inactive"; V 1 1 "IN broadcast mode active, TMP broadcast mode inactive	"; V 2 2 "IN broadcast mode inactive, TMP broadcast mode active"; V 3 3 "IN and TMP broadcast mode active"]; P 14 "Scene activation" 1 [V 0 0 "Disabled"; V 1 1 "Enabled"]].
Definition dpar239 : list gparam := [P 1 "Operations mode" 1 [V 0 1 ""]; P 2 "Door/Window or alarm status" 1 [V 0 1 ""]; P 3 "Visual LED indications" 1 [V 0 6 ""]; P 4 "Range test after double click" 1 [V 0 1 ""]; P 10 "2nd association group triggers" 1 [V 0 2 ""]; P 11 "Commands sent to 2nd association group" 1 [V 0 2 ""]; P 12 "Value of ON command frame sent to 2nd association group" 2 [V 0 255 ""]; P 13 "Value of OFF command frame sent to 2nd association group" 2 [V 0 255 ""]; P 14 "Time delay of ON command frame" 2 [V 0 32400 ""]; P 15 "Time delay of OFF command frame" 2 [V 0 32400 ""]; P 20 "Type of sent alarm frames" 1 [V 0 5 ""]; P 30 "Delay of tamper alarm cancellation" 2 [V 0 32400 ""]; P 31 "Reporting tamper alarm cancellation" 1 [V 0 1 ""]; P 50 "Interval of temperature measurements" 2 [V 0 32400 ""]; P 51 "Temperature reports threshold" 2 [V 0 300 ""]; P 52 "Interval of temperature reports" 2 [V 0 32400 ""]; P 53 "Temperature offset" 4 [V (-1000) 1000 ""]; P 54 "Temperature alarm reports" 1 [V 0 3 ""]; P 55 "High temperature alarm threshold" 2 [V 0 1000 ""]; P 56 "Low temperature alarm threshold" 2 [V (-300) 700 ""]; P 70 "Scene activation functionality" 2 [V 1 2048 ""]; P 71 "Alarm broadcast" 1 [V 0 4 ""]; P 72 "Associations in Z-Wave network Security Mode" 1 [V 0 15 ""]].
Definition dpar240 : list gparam := [P 1 "Operations mode" 1 [V 0 1 ""]; P 2 "Door/Window or alarm status" 1 [V 0 1 ""]; P 3 "Visual LED indications" 1 [V 0 6 ""]; P 4 "Range test after double click" 1 [V 0 1 ""]; P 10 "2nd association group triggers" 1 [V 0 2 ""]; P 11 "Commands sent to 2nd association group" 1 [V 0 2 ""]; P 12 "Value of ON command frame sent to 2nd association group" 2 [V 0 255 ""]; P 13 "Value of OFF command frame sent to 2nd association group" 2 [V 0 255 ""]; P 14 "Time delay of ON command frame" 2 [V 0 32400 ""]; P 15 "Time delay of OFF command frame" 2 [V 0 32400 ""]; P 20 "Type of sent alarm frames" 1 [V 0 5 ""]; P 30 "Delay of tamper alarm cancellation" 2 [V 0 32400 ""]; P 31 "Reporting tamper alarm cancellation" 1 [V 0 1 ""]; P 50 "Interval of temperature measurements" 2 [V 0 32400 ""]; P 51 "Temperature reports threshold" 2 [V 0 300 ""]; P 52 "Interval of temperature reports" 2 [V 0 32400 ""]; P 53 "Temperature offset" 4 [V (-1000) 1000 ""]; P 54 "Temperature alarm reports" 1 [V 0 3 ""]; P 55 "High temperature alarm threshold" 2 [V 0 1000 ""]; P 56 "Low temperature alarm threshold" 2 [V (-300) 700 ""]; P 70 "Scene activation functionality" 2 [V 1 2048 ""]; P 71 "Alarm broadcast" 1 [V 0 4 ""]; P 72 "Associations in Z-Wave network Security Mode" 1 [V 0 15 ""]].
Definition dpar241 : list gparam := [P 1 "Lock Mode - unlocking sequence" 2 [V 0 28086 ""]; P 2 "Lock Mode - time to lock and locking button" 2 [V 0 1791 ""]; P 3 "First scene sequence" 2 [V 0 28086 ""]; P 4 "Second scene sequence" 2 [V 0 28086 ""]; P 5 "Third scene sequence" 2 [V 0 28086 ""]; P 6 "Fourth scene sequence" 2 [V 0 28086 ""]; P 7 "Fifth scene sequence" 2 [V 0 28086 ""]; P 8 "Sixth scene sequence" 2 [V 0 28086 ""]; P 9 "Sequences - timeout" 1 [V 5 30 ""]; P 10 "Single button associations - operating mode" 1 [V 0 0 "single click switches state to opposite"; V 1 1 "single click => opposite, double click => max"; V 2 2 "single click turns on, double click turns off"]; P 11 "Value sent to □ association group" 2 [V 1 255 ""]; P 12 "Value sent to ○ association group	" 2 [V 1 255 ""]; P 13 "Value sent to x association group	" 2 [V 1 255 ""]; P 14 "Value sent to Δ association group" 2 [V 1 255 ""]; P 15 "Value sent to - association group	" 2 [V 1 255 ""]; P 16 "Value sent to + association group" 2 [V 1 255 ""]; P 17 "Paired buttons association for □ and ○" 1 [V 0 0 "paired buttons association inactive"; V 1 1 "paired buttons association active"]; P 18 "Paired buttons association for x and Δ" 1 [V 0 0 "paired buttons association inactive"; V 1 1 "paired buttons association active"]; P 19 "Paired buttons association for - and +" 1 [V 0 0 "paired buttons association inactive"; V 1 1 "paired buttons association active"]; P 21 "Scene activation for □ button" 1 [V 0 15 ""]; P 22 "Scene activation for ○ button" 1 [V 0 15 ""]; P 23 "Scene activation for x button	" 1 [V 0 15 ""]; P 24 "Scene activation for Δ button	" 1 [V 0 15 ""]; P 25 "Scene activation for - button	" 1 [V 0 15 ""]; P 26 "Scene activation for + button	" 1 [V 0 15 ""]; P 29 "Associations in Z-Wave network security mode" 2 [V 0 4095 ""]].
Definition dpar242 : list gparam := [P 1 "Motion Sensor's Sensitivity" 1 [V 8 255 ""]; P 2 "Motion Sensor's Blind Time (Insensitive)" 1 [V 0 15 ""]; P 3 "PIR Sensor’s “PULSE COUNTER”" 1 [V 0 3 ""]; P 4 "PIR Sensor’s “WINDOW TIME”" 1 [V 0 3 ""]; P 6 "Motion Alarm Cancellation Delay" 2 [V 1 65535 ""]; P 8 "PIR Sensor Operating Mode" 1 [V 0 0 "PIR sensor always active"; V 1 1 "PIR sensor active during the day only"; V 2 2 "PIR sensor active during the night only"]; P 9 "Night / Day" 2 [V 1 65535 ""]; P 12 "BASIC command class configuration" 1 [V 0 0 "BASIC ON and BASIC OFF"; V 1 1 "Only the BASIC ON"; V 2 2 "Only the BASIC OFF"]; P 14 "BASIC ON command frame value" 1 [V 0 255 ""]; P 16 "BASIC OFF command frame value" 1 [V 0 255 ""]; P 20 "Tamper Sensitivity" 1 [V 0 122 ""]; P 22 "Tamper - alarm cancellation delay" 2 [V 0 65535 ""]; P 24 "Tamper Operating Modes" 1 [V 0 0 "Tamper alarm is reported  / Cancellation is not reported."; V 1 1 "Tamper alarm is reported / Cancellation is reported."; V 2 2 "Same as Value 0 / with unsupported Fibar Command Class."; V 3 3 "Same as Value 1 / with unsupported Fibar Command Class."; V 4 4 "The maximum level of vibrations recorded in the time period."]; P 26 "Tamper Alarm Broadcast Mode" 1 [V 0 0 "Tamper alarm is not sent in broadcast mode."; V 1 1 "Tamper alarm sent in broadcast mode."]; P 40 "Illumination Report Threshold" 2 [V 0 65535 ""]; P 42 "Illumination Reports Interval" 2 [V 0 65535 ""]; P 60 "Temperature Report Threshold" 1 [V 0 255 ""]; P 62 "Interval of Temperature Measuring" 2 [V 0 65535 ""]; P 64 "Temperature Reports Interval" 2 [V 0 65535 ""]; P 66 "Temperature Offset" 2 [V (-100) 100 ""]; P 80 "LED Signalling Mode" 1 [V 0 0 "LED inactive."; V 1 1 "LED colour depends on the temperature"; V 2 2 "Flashlight mode - LED glows in white for 10 seconds."; V 3 3 "White."; V 4 4 "Red."; V 5 5 "Green."; V 6 6 "Blue."; V 7 7 "Yellow."; V 8 8 "Cyan."; V 9 9 "Magenta."; V 10 10 "LED colour depends on the temperature"; V 11 11 "Flashlight mode"; V 12 12 "White."; V 13 13 "Red."; V 14 14 "Green."; V 15 15 "Blue."; V 16 16 "Yellow."; V 17 17 "Cyan."; V 18 18 "Magenta."; V 19 19 "LED colour depends on the temperature"; V 20 20 "White."; V 21 21 "Red."; V 22 22 "Green."; V 23 23 "Blue."; V 24 24 "Yellow."; V 25 25 "Cyan."; V 26 26 "Magenta."]; P 81 "LED Brightness" 1 [V 0 100 ""]; P 82 "Ambient Illumination Level" 2 [V 0 65535 ""]; P 83 "Ambient Illumination Level" 2 [V 0 65535 ""]; P 86 "Min Temperature Resulting in Blue LED Illumination" 1 [V 0 100 ""]; P 87 "Max Temperature Resulting in Red LED Illumination" 1 [V 0 100 ""]; P 89 "LED indicating Tamper Alarm" 1 [V 0 0 "LED does not indicate tamper alarm."; V 1 1 "LED indicates tamper alarm."]].
Definition dpar243 : list gparam := [P 1 "Motion Sensor's Sensitivity" 1 [V 8 255 ""]; P 2 "Motion Sensor's Blind Time (Insensitive)" 1 [V 0 15 ""]; P 3 "PIR Sensor’s “PULSE COUNTER”" 1 [V 0 3 ""]; P 4 "PIR Sensor’s “WINDOW TIME”" 1 [V 0 3 ""]; P 6 "Motion Alarm Cancellation Delay" 2 [V 1 65535 ""]; P 8 "PIR Sensor Operating Mode" 1 [V 0 0 "PIR sensor always active"; V 1 1 "PIR sensor active during the day only"; V 2 2 "PIR sensor active during the night only"]; P 9 "Night / Day" 2 [V 1 65535 ""]; P 12 "BASIC command class configuration" 1 [V 0 0 "BASIC ON and BASIC OFF"; V 1 1 "Only the BASIC ON"; V 2 2 "Only the BASIC OFF"]; P 14 "BASIC ON command frame value" 1 [V 0 255 ""]; P 16 "BASIC OFF command frame value" 1 [V 0 255 ""]; P 20 "Tamper Sensitivity" 1 [V 0 122 ""]; P 22 "Tamper - alarm cancellation delay" 2 [V 0 65535 ""]; P 24 "Tamper Operating Modes" 1 [V 0 0 "Tamper alarm is reported  / Cancellation is not reported."; V 1 1 "Tamper alarm is reported / Cancellation is reported."; V 2 2 "Same as Value 0 / with unsupported Fibar Command Class."; V 3 3 "Same as Value 1 / with unsupported Fibar Command Class."; V 4 4 "The maximum level of vibrations recorded in the time period."]; P 26 "Tamper Alarm Broadcast Mode" 1 [V 0 0 "Tamper alarm is not sent in broadcast mode."; V 1 1 "Tamper alarm sent in broadcast mode."]; P 40 "Illumination Report Threshold" 2 [V 0 65535 ""]; P 42 "Illumination Reports Interval" 2 [V 0 65535 ""]; P 60 "Temperature Report Threshold" 1 [V 0 255 ""]; P 62 "Interval of Temperature Measuring" 2 [V 0 65535 ""]; P 64 "Temperature Reports Interval" 2 [V 0 65535 ""]; P 66 "Temperature Offset" 2 [V (-100) 100 ""]; P 80 "LED Signalling Mode" 1 [V 0 0 "LED inactive."; V 1 1 "LED colour depends on the temperature"; V 2 2 "Flashlight mode - LED glows in white for 10 seconds."; V 3 3 "White."; V 4 4 "Red."; V 5 5 "Green."; V 6 6 "Blue."; V 7 7 "Yellow."; V 8 8 "Cyan."; V 9 9 "Magenta."; V 10 10 "LED colour depends on the temperature"; V 11 11 "Flashlight mode"; V 12 12 "White."; V 13 13 "Red."; V 14 14 "Green."; V 15 15 "Blue."; V 16 16 "Yellow."; V 17 17 "Cyan."; V 18 18 "Magenta."; V 19 19 "LED colour depends on the temperature"; V 20 20 "White."; V 21 21 "Red."; V 22 22 "Green."; V 23 23 "Blue."; V 24 24 "Yellow."; V 25 25 "Cyan."; V 26 26 "Magenta."]; P 81 "LED Brightness" 1 [V 0 100 ""]; P 82 "Ambient Illumination Level" 2 [V 0 65535 ""]; P 83 "Ambient Illumination Level" 2 [V 0 65535 ""]; P 86 "Min Temperature Resulting in Blue LED Illumination" 1 [V 0 100 ""]; P 87 "Max Temperature Resulting in Red LED Illumination" 1 [V 0 100 ""]; P 89 "LED indicating Tamper Alarm" 1 [V 0 0 "LED does not indicate tamper alarm."; V 1 1 "LED indicates tamper alarm."]].
Definition dpar244 : list gparam := [P 1 "Motion Sensor's Sensitivity" 1 [V 8 255 ""]; P 2 "Motion Sensor's Blind Time (Insensitive)" 1 [V 0 15 ""]; P 3 "PIR Sensor’s “PULSE COUNTER”" 1 [V 0 3 ""]; P 4 "PIR Sensor’s “WINDOW TIME”" 1 [V 0 3 ""]; P 6 "Motion Alarm Cancellation Delay" 2 [V 1 65535 ""]; P 8 "PIR Sensor Operating Mode" 1 [V 0 0 "PIR sensor always active"; V 1 1 "PIR sensor active during the day only"; V 2 2 "PIR sensor active during the night only"]; P 9 "Night / Day" 2 [V 1 65535 ""]; P 12 "BASIC command class configuration" 1 [V 0 0 "BASIC ON and BASIC OFF"; V 1 1 "Only the BASIC ON"; V 2 2 "Only the BASIC OFF"]; P 14 "BASIC ON command frame value" 1 [V 0 255 ""]; P 16 "BASIC OFF command frame value" 1 [V 0 255 ""]; P 20 "Tamper Sensitivity" 1 [V 0 122 ""]; P 22 "Tamper - alarm cancellation delay" 2 [V 0 65535 ""]; P 24 "Tamper Operating Modes" 1 [V 0 0 "Tamper alarm is reported  / Cancellation is not reported."; V 1 1 "Tamper alarm is reported / Cancellation is reported."; V 2 2 "Same as Value 0 / with unsupported Fibar Command Class."; V 3 3 "Same as Value 1 / with unsupported Fibar Command Class."; V 4 4 "The maximum level of vibrations recorded in the time period."]; P 26 "Tamper Alarm Broadcast Mode" 1 [V 0 0 "Tamper alarm is not sent in broadcast mode."; V 1 1 "Tamper alarm sent in broadcast mode."]; P 40 "Illumination Report Threshold" 2 [V 0 65535 ""]; P 42 "Illumination Reports Interval" 2 [V 0 65535 ""]; P 60 "Temperature Report Threshold" 1 [V 0 255 ""]; P 62 "Interval of Temperature Measuring" 2 [V 0 65535 ""]; P 64 "Temperature Reports Interval" 2 [V 0 65535 ""]; P 66 "Temperature Offset" 2 [V (-100) 100 ""]; P 80 "LED Signalling Mode" 1 [V 0 0 "LED inactive."; V 1 1 "LED colour depends on the temperature"; V 2 2 "Flashlight mode - LED glows in white for 10 seconds."; V 3 3 "White."; V 4 4 "Red."; V 5 5 "Green."; V 6 6 "Blue."; V 7 7 "Yellow."; V 8 8 "Cyan."; V 9 9 "Magenta."; V 10 10 "LED colour depends on the temperature"; V 11 11 "Flashlight mode"; V 12 12 "White."; V 13 13 "Red."; V 14 14 "Green."; V 15 15 "Blue."; V 16 16 "Yellow."; V 17 17 "Cyan."; V 18 18 "Magenta."; V 19 19 "LED colour depends on the temperature"; V 20 20 "White."; V 21 21 "Red."; V 22 22 "Green."; V 23 23 "Blue."; V 24 24 "Yellow."; V 25 25 "Cyan."; V 26 26 "Magenta."]; P 81 "LED Brightness" 1 [V 0 100 ""]; P 82 "Ambient Illumination Level" 2 [V 0 65535 ""]; P 83 "Ambient Illumination Level" 2 [V 0 65535 ""]; P 86 "Min Temperature Resulting in Blue LED Illumination" 1 [V 0 100 ""]; P 87 "Max Temperature Resulting in Red LED Illumination" 1 [V 0 100 ""]; P 89 "LED indicating Tamper Alarm" 1 [V 0 0 "LED does not indicate tamper alarm."; V 1 1 "LED indicates tamper alarm."]].
Definition dpar245 : list gparam := [P 1 "Motion Sensor's Sensitivity" 1 [V 8 255 ""]; P 2 "Motion Sensor's Blind Time (Insensitive)" 1 [V 0 15 ""]; P 3 "PIR Sensor’s “PULSE COUNTER”" 1 [V 0 3 ""]; P 4 "PIR Sensor’s “WINDOW TIME”" 1 [V 0 3 ""]; P 6 "Motion Alarm Cancellation Delay" 2 [V 1 65535 ""]; P 8 "PIR Sensor Operating Mode" 1 [V 0 0 "PIR sensor always active"; V 1 1 "PIR sensor active during the day only"; V 2 2 "PIR sensor active during the night only"]; P 9 "Night / Day" 2 [V 1 65535 ""]; P 12 "BASIC command class configuration" 1 [V 0 0 "BASIC ON and BASIC OFF"; V 1 1 "Only the BASIC ON"; V 2 2 "Only the BASIC OFF"]; P 14 "BASIC ON command frame value" 1 [V 0 255 ""]; P 16 "BASIC OFF command frame value" 1 [V 0 255 ""]; P 20 "Tamper Sensitivity" 1 [V 0 122 ""]; P 22 "Tamper - alarm cancellation delay" 2 [V 0 65535 ""]; P 24 "Tamper Operating Modes" 1 [V 0 0 "Tamper alarm is reported  / Cancellation is not reported."; V 1 1 "Tamper alarm is reported / Cancellation is reported."; V 2 2 "Same as Value 0 / with unsupported Fibar Command Class."; V 3 3 "Same as Value 1 / with unsupported Fibar Command Class."; V 4 4 "The maximum level of vibrations recorded in the time period."]; P 26 "Tamper Alarm Broadcast Mode" 1 [V 0 0 "Tamper alarm is not sent in broadcast mode."; V 1 1 "Tamper alarm sent in broadcast mode."]; P 40 "Illumination Report Threshold" 2 [V 0 65535 ""]; P 42 "Illumination Reports Interval" 2 [V 0 65535 ""]; P 60 "Temperature Report Threshold" 1 [V 0 255 ""]; P 62 "Interval of Temperature Measuring" 2 [V 0 65535 ""]; P 64 "Temperature Reports Interval" 2 [V 0 65535 ""]; P 66 "Temperature Offset" 2 [V (-100) 100 ""]; P 80 "LED Signalling Mode" 1 [V 0 0 "LED inactive."; V 1 1 "LED colour depends on the temperature"; V 2 2 "Flashlight mode - LED glows in white for 10 seconds."; V 3 3 "White."; V 4 4 "Red."; V 5 5 "Green."; V 6 6 "Blue."; V 7 7 "Yellow."; V 8 8 "Cyan."; V 9 9 "Magenta."; V 10 10 "LED colour depends on the temperature"; V 11 11 "Flashlight mode"; V 12 12 "White."; V 13 13 "Red."; V 14 14 "Green."; V 15 15 "Blue."; V 16 16 "Yellow."; V 17 17 "Cyan."; V 18 18 "Magenta."; V 19 19 "LED colour depends on the temperature"; V 20 20 "White."; V 21 21 "Red."; V 22 22 "Green."; V 23 23 "Blue."; V 24 24 "Yellow."; V 25 25 "Cyan."; V 26 26 "Magenta."]; P 81 "LED Brightness" 1 [V 0 100 ""]; P 82 "Ambient Illumination Level" 2 [V 0 65535 ""]; P 83 "Ambient Illumination Level" 2 [V 0 65535 ""]; P 86 "Min Temperature Resulting in Blue LED Illumination" 1 [V 0 100 ""]; P 87 "Max Temperature Resulting in Red LED Illumination" 1 [V 0 100 ""]; P 89 "LED indicating Tamper Alarm" 1 [V 0 0 "LED does not indicate tamper alarm."; V 1 1 "LED indicates tamper alarm."]].
Definition dpar246 : list gparam := [P 1 "Motion Sensor's Sensitivity" 1 [V 8 255 ""]; P 2 "Motion Sensor's Blind Time (Insensitive)" 1 [V 0 15 ""]; P 3 "PIR Sensor’s “PULSE COUNTER”" 1 [V 0 3 ""]; P 4 "PIR Sensor’s “WINDOW TIME”" 1 [V 0 3 ""]; P 6 "Motion Alarm Cancellation Delay" 2 [V 1 65535 ""]; P 8 "PIR Sensor Operating Mode" 1 [V 0 0 "PIR sensor always active"; V 1 1 "PIR sensor active during the day only"; V 2 2 "PIR sensor active during the night only"]; P 9 "Night / Day" 2 [V 1 65535 ""]; P 12 "BASIC command class configuration" 1 [V 0 0 "BASIC ON and BASIC OFF"; V 1 1 "Only the BASIC ON"; V 2 2 "Only the BASIC OFF"]; P 14 "BASIC ON command frame value" 1 [V 0 255 ""]; P 16 "BASIC OFF command frame value" 1 [V 0 255 ""]; P 20 "Tamper Sensitivity" 1 [V 0 122 ""]; P 22 "Tamper - alarm cancellation delay" 2 [V 0 65535 ""]; P 24 "Tamper Operating Modes" 1 [V 0 0 "Tamper alarm is reported  / Cancellation is not reported."; V 1 1 "Tamper alarm is reported / Cancellation is reported."; V 2 2 "Same as Value 0 / with unsupported Fibar Command Class."; V 3 3 "Same as Value 1 / with unsupported Fibar Command Class."; V 4 4 "The maximum level of vibrations recorded in the time period."]; P 26 "Tamper Alarm Broadcast Mode" 1 [V 0 0 "Tamper alarm is not sent in broadcast mode."; V 1 1 "Tamper alarm sent in broadcast mode."]; P 40 "Illumination Report Threshold" 2 [V 0 65535 ""]; P 42 "Illumination Reports Interval" 2 [V 0 65535 ""]; P 60 "Temperature Report Threshold" 1 [V 0 255 ""]; P 62 "Interval of Temperature Measuring" 2 [V 0 65535 ""]; P 64 "Temperature Reports Interval" 2 [V 0 65535 ""]; P 66 "Temperature Offset" 2 [V (-100) 100 ""]; P 80 "LED Signalling Mode" 1 [V 0 0 "LED inactive."; V 1 1 "LED colour depends on the temperature"; V 2 2 "Flashlight mode - LED glows in white for 10 seconds."; V 3 3 "White."; V 4 4 "Red."; V 5 5 "Green."; V 6 6 "Blue."; V 7 7 "Yellow."; V 8 8 "Cyan."; V 9 9 "Magenta."; V 10 10 "LED colour depends on the temperature"; V 11 11 "Flashlight mode"; V 12 12 "White."; V 13 13 "Red."; V 14 14 "Green."; V 15 15 "Blue."; V 16 16 "Yellow."; V 17 17 "Cyan."; V 18 18 "Magenta."; V 19 19 "LED colour depends on the temperature"; V 20 20 "White."; V 21 21 "Red."; V 22 22 "Green."; V 23 23 "Blue."; V 24 24 "Yellow."; V 25 25 "Cyan."; V 26 26 "Magenta."]; P 81 "LED Brightness" 1 [V 0 100 ""]; P 82 "Ambient Illumination Level" 2 [V 0 65535 ""]; P 83 "Ambient Illumination Level" 2 [V 0 65535 ""]; P 86 "Min Temperature Resulting in Blue LED Illumination" 1 [V 0 100 ""]; P 87 "Max Temperature Resulting in Red LED Illumination" 1 [V 0 100 ""]; P 89 "LED indicating Tamper Alarm" 1 [V 0 0 "LED does not indicate tamper alarm."; V 1 1 "LED indicates tamper alarm."]].
Definition dpar247 : list gparam := [P 1 "Motion detection - sensitivity" 2 [V 8 255 ""]; P 2 "Motion detection - blind time" 1 [V 0 15 ""]; P 3 "Motion detection - pulse counter" 1 [V 0 0 "1 pulse"; V 1 1 "2 pulses"; V 2 2 "3 pulses"; V 3 3 "4 pulses"]; P 4 "Motion detection - window time" 1 [V 0 0 "4 seconds"; V 1 1 "8 seconds"; V 2 2 "12 seconds"; V 3 3 "16 seconds"]; P 6 "Motion detection - alarm cancellation delay" 2 [V 1 32767 ""]; P 8 "Motion detection - operating mode" 1 [V 0 0 "PIR sensor always active"; V 1 1 "PIR sensor active during the day only"; V 2 2 "PIR sensor active during the night only"]; P 9 "Motion detection - night/day" 2 [V 1 32767 ""]; P 12 "BASIC command class configuration" 1 [V 0 0 "BASIC ON and BASIC OFF"; V 1 1 "Only the BASIC ON"; V 2 2 "Only the BASIC OFF"]; P 14 "BASIC ON command frame value" 2 [V 0 255 ""]; P 16 "BASIC OFF command frame value" 2 [V 0 255 ""]; P 18 "Associations in Z-Wave network Security Mode" 1 [V 0 15 ""]; P 20 "Tamper - sensitivity" 1 [V 0 121 ""]; P 22 "Tamper - alarm cancellation delay" 2 [V 1 32767 ""]; P 24 "Tamper - operating modes" 1 [V 0 0 "Only tamper (default)"; V 1 1 "Tamper and earthquake detector"; V 2 2 "Tamper and orientation in space"]; P 25 "Tamper - alarm cancellation" 1 [V 0 0 "Do not send tamper cancellation report"; V 1 1 "Send tamper cancellation report"]; P 28 "Tamper - broadcast mode" 1 [V 0 0 "Reported to association groups."; V 1 1 "Reported in broadcast mode to 3rd association group."]; P 29 "Tamper - backward compatible broadcast mode" 1 [V 0 0 "Reported to association groups."; V 1 1 "Reported in broadcast mode to 5th association group."]; P 40 "Illuminance report - threshold" 2 [V 0 32767 ""]; P 42 "Illuminance report - interval" 2 [V 0 32767 ""]; P 60 "Temperature report - threshold" 2 [V 0 255 ""]; P 62 "Temperature measuring - interval" 2 [V 0 32767 ""]; P 64 "Temperature report - interval" 2 [V 0 32767 ""]; P 66 "Temperature offset" 2 [V 0 65535 ""]; P 80 "LED - signalling mode" 1 [V 0 0 "LED inactive."; V 1 1 "LED colour depends on the temperature"; V 2 2 "Flashlight mode - LED glows in white for 10 seconds."; V 3 3 "White."; V 4 4 "Red."; V 5 5 "Green."; V 6 6 "Blue."; V 7 7 "Yellow."; V 8 8 "Cyan."; V 9 9 "Magenta."; V 10 10 "LED colour depends on the temperature"; V 11 11 "Flashlight mode"; V 12 12 "White."; V 13 13 "Red."; V 14 14 "Green."; V 15 15 "Blue."; V 16 16 "Yellow."; V 17 17 "Cyan."; V 18 18 "Magenta."; V 19 19 "LED colour depends on the temperature"; V 20 20 "White."; V 21 21 "Red."; V 22 22 "Green."; V 23 23 "Blue."; V 24 24 "Yellow."; V 25 25 "Cyan."; V 26 26 "Magenta."]; P 81 "LED - brightness" 1 [V 0 100 ""]; P 82 "LED - illuminance for low indicator brightness" 2 [V 0 32767 ""]; P 83 "LED - illuminance for high indicator brightness" 2 [V 0 32767 ""]; P 86 "LED - temperature for blue colour" 2 [V 0 255 ""]; P 87 "LED - temperature for red colour" 2 [V 0 255 ""]; P 89 "LED - tamper alarm" 1 [V 0 0 "LED does not indicate tamper alarm."; V 1 1 "LED indicates tamper alarm."]].
Definition dpar248 : list gparam := [P 1 "Motion detection - sensitivity" 2 [V 8 255 ""]; P 2 "Motion detection - blind time" 1 [V 0 15 ""]; P 3 "Motion detection - pulse counter" 1 [V 0 0 "1 pulse"; V 1 1 "2 pulses"; V 2 2 "3 pulses"; V 3 3 "4 pulses"]; P 4 "Motion detection - window time" 1 [V 0 0 "4 seconds"; V 1 1 "8 seconds"; V 2 2 "12 seconds"; V 3 3 "16 seconds"]; P 6 "Motion detection - alarm cancellation delay" 2 [V 1 32767 ""]; P 8 "Motion detection - operating mode" 1 [V 0 0 "PIR sensor always active"; V 1 1 "PIR sensor active during the day only"; V 2 2 "PIR sensor active during the night only"]; P 9 "Motion detection - night/day" 2 [V 1 32767 ""]; P 12 "BASIC command class configuration" 1 [V 0 0 "BASIC ON and BASIC OFF"; V 1 1 "Only the BASIC ON"; V 2 2 "Only the BASIC OFF"]; P 14 "BASIC ON command frame value" 2 [V 0 255 ""]; P 16 "BASIC OFF command frame value" 2 [V 0 255 ""]; P 18 "Associations in Z-Wave network Security Mode" 1 [V 0 15 ""]; P 20 "Tamper - sensitivity" 1 [V 0 121 ""]; P 22 "Tamper - alarm cancellation delay" 2 [V 1 32767 ""]; P 24 "Tamper - operating modes" 1 [V 0 0 "Only tamper (default)"; V 1 1 "Tamper and earthquake detector"; V 2 2 "Tamper and orientation in space"]; P 25 "Tamper - alarm cancellation" 1 [V 0 0 "Do not send tamper cancellation report"; V 1 1 "Send tamper cancellation report"]; P 28 "Tamper - broadcast mode" 1 [V 0 0 "Reported to association groups."; V 1 1 "Reported in broadcast mode to 3rd association group."]; P 29 "Tamper - backward compatible broadcast mode" 1 [V 0 0 "Reported to association groups."; V 1 1 "Reported in broadcast mode to 5th association group."]; P 40 "Illuminance report - threshold" 2 [V 0 32767 ""]; P 42 "Illuminance report - interval" 2 [V 0 32767 ""]; P 60 "Temperature report - threshold" 2 [V 0 255 ""]; P 62 "Temperature measuring - interval" 2 [V 0 32767 ""]; P 64 "Temperature report - interval" 2 [V 0 32767 ""]; P 66 "Temperature offset" 2 [V 0 65535 ""]; P 80 "LED - signalling mode" 1 [V 0 0 "LED inactive."; V 1 1 "LED colour depends on the temperature"; V 2 2 "Flashlight mode - LED glows in white for 10 seconds."; V 3 3 "White."; V 4 4 "Red."; V 5 5 "Green."; V 6 6 "Blue."; V 7 7 "Yellow."; V 8 8 "Cyan."; V 9 9 "Magenta."; V 10 10 "LED colour depends on the temperature"; V 11 11 "Flashlight mode"; V 12 12 "White."; V 13 13 "Red."; V 14 14 "Green."; V 15 15 "Blue."; V 16 16 "Yellow."; V 17 17 "Cyan."; V 18 18 "Magenta."; V 19 19 "LED colour depends on the temperature"; V 20 20 "White."; V 21 21 "Red."; V 22 22 "Green."; V 23 23 "Blue."; V 24 24 "Yellow."; V 25 25 "Cyan."; V 26 26 "Magenta."]; P 81 "LED - brightness" 1 [V 0 100 ""]; P 82 "LED - illuminance for low indicator brightness" 2 [V 0 32767 ""]; P 83 "LED - illuminance for high indicator brightness" 2 [V 0 32767 ""]; P 86 "LED - temperature for blue colour" 2 [V 0 255 ""]; P 87 "LED - temperature for red colour" 2 [V 0 255 ""]; P 89 "LED - tamper alarm" 1 [V 0 0 "LED does not indicate tamper alarm."; V 1 1 "LED indicates tamper alarm."]].
Definition dpar249 : list gparam := [P 1 " Scenes sent to the controller" 1 [V 1 127 ""]; P 3 "Associations in Z-Wave network Security Mode" 1 [V 1 7 ""]; P 10 " Key Pressed 1 time – command sent to 2nd group" 1 [V 0 3 ""]; P 11 " Key Pressed 1 time – value of SWITCH ON sent to 2nd group" 2 [V 1 255 ""]; P 12 " Key Pressed 2 times – command sent to 2nd group" 1 [V 0 3 ""]; P 13 "Key Pressed 2 times – value of SWITCH ON sent to 2nd group" 2 [V 1 255 ""]; P 14 "Key Pressed 3 times – command sent to 2nd group" 1 [V 0 3 ""]; P 15 "Key Pressed 3 times – value of SWITCH ON sent to 2nd group" 2 [V 1 255 ""]; P 20 " Key Pressed 1 time – command sent to 3rd group" 1 [V 1 3 ""]; P 21 "Key Pressed 1 time – value of SWITCH ON sent to 3rd group" 2 [V 1 255 ""]; P 22 " Key Pressed 2 times – command sent to 3rd group" 1 [V 1 3 ""]; P 23 "Key Pressed 2 times – value of SWITCH ON sent to 3rd group" 2 [V 1 255 ""]; P 24 "Key Pressed 3 times – command sent to 3rd group" 1 [V 0 3 ""]; P 25 "Key Pressed 3 times – value of SWITCH ON sent to 3rd group" 2 [V 1 255 ""]; P 29 "Key Held Down – command sent to 3rd group" 1 [V 0 3 ""]; P 30 "Alarm frame triggers" 1 [V 1 127 ""]].
Definition dpar250 : list gparam := [P 1 " Scenes sent to the controller" 1 [V 1 127 ""]; P 3 "Associations in Z-Wave network Security Mode" 1 [V 1 7 ""]; P 10 " Key Pressed 1 time – command sent to 2nd group" 1 [V 0 3 ""]; P 11 " Key Pressed 1 time – value of SWITCH ON sent to 2nd group" 2 [V 1 255 ""]; P 12 " Key Pressed 2 times – command sent to 2nd group" 1 [V 0 3 ""]; P 13 "Key Pressed 2 times – value of SWITCH ON sent to 2nd group" 2 [V 1 255 ""]; P 14 "Key Pressed 3 times – command sent to 2nd group" 1 [V 0 3 ""]; P 15 "Key Pressed 3 times – value of SWITCH ON sent to 2nd group" 2 [V 1 255 ""]; P 20 " Key Pressed 1 time – command sent to 3rd group" 1 [V 1 3 ""]; P 21 "Key Pressed 1 time – value of SWITCH ON sent to 3rd group" 2 [V 1 255 ""]; P 22 " Key Pressed 2 times – command sent to 3rd group" 1 [V 1 3 ""]; P 23 "Key Pressed 2 times – value of SWITCH ON sent to 3rd group" 2 [V 1 255 ""]; P 24 "Key Pressed 3 times – command sent to 3rd group" 1 [V 0 3 ""]; P 25 "Key Pressed 3 times – value of SWITCH ON sent to 3rd group" 2 [V 1 255 ""]; P 29 "Key Held Down – command sent to 3rd group" 1 [V 0 3 ""]; P 30 "Alarm frame triggers" 1 [V 1 127 ""]].
Definition dpar251 : list gparam := [P 1 " Scenes sent to the controller" 1 [V 1 127 ""]; P 3 "Associations in Z-Wave network Security Mode" 1 [V 1 7 ""]; P 10 " Key Pressed 1 time – command sent to 2nd group" 1 [V 0 3 ""]; P 11 " Key Pressed 1 time – value of SWITCH ON sent to 2nd group" 2 [V 1 255 ""]; P 12 " Key Pressed 2 times – command sent to 2nd group" 1 [V 0 3 ""]; P 13 "Key Pressed 2 times – value of SWITCH ON sent to 2nd group" 2 [V 1 255 ""]; P 14 "Key Pressed 3 times – command sent to 2nd group" 1 [V 0 3 ""]; P 15 "Key Pressed 3 times – value of SWITCH ON sent to 2nd group" 2 [V 1 255 ""]; P 20 " Key Pressed 1 time – command sent to 3rd group" 1 [V 1 3 ""]; P 21 "Key Pressed 1 time – value of SWITCH ON sent to 3rd group" 2 [V 1 255 ""]; P 22 " Key Pressed 2 times – command sent to 3rd group" 1 [V 1 3 ""]; P 23 "Key Pressed 2 times – value of SWITCH ON sent to 3rd group" 2 [V 1 255 ""]; P 24 "Key Pressed 3 times – command sent to 3rd group" 1 [V 0 3 ""]; P 25 "Key Pressed 3 times – value of SWITCH ON sent to 3rd group" 2 [V 1 255 ""]; P 29 "Key Held Down – command sent to 3rd group" 1 [V 0 3 ""]; P 30 "Alarm frame triggers" 1 [V 1 127 ""]].
Definition dpar252 : list gparam := [P 1 " Scenes sent to the controller" 1 [V 1 127 ""]; P 3 "Associations in Z-Wave network Security Mode" 1 [V 1 7 ""]; P 10 " Key Pressed 1 time – command sent to 2nd group" 1 [V 0 3 ""]; P 11 " Key Pressed 1 time – value of SWITCH ON sent to 2nd group" 2 [V 1 255 ""]; P 12 " Key Pressed 2 times – command sent to 2nd group" 1 [V 0 3 ""]; P 13 "Key Pressed 2 times – value of SWITCH ON sent to 2nd group" 2 [V 1 255 ""]; P 14 "Key Pressed 3 times – command sent to 2nd group" 1 [V 0 3 ""]; P 15 "Key Pressed 3 times – value of SWITCH ON sent to 2nd group" 2 [V 1 255 ""]; P 20 " Key Pressed 1 time – command sent to 3rd group" 1 [V 1 3 ""]; P 21 "Key Pressed 1 time – value of SWITCH ON sent to 3rd group" 2 [V 1 255 ""]; P 22 " Key Pressed 2 times – command sent to 3rd group" 1 [V 1 3 ""]; P 23 "Key Pressed 2 times – value of SWITCH ON sent to 3rd group" 2 [V 1 255 ""]; P 24 "Key Pressed 3 times – command sent to 3rd group" 1 [V 0 3 ""]; P 25 "Key Pressed 3 times – value of SWITCH ON sent to 3rd group" 2 [V 1 255 ""]; P 29 "Key Held Down – command sent to 3rd group" 1 [V 0 3 ""]; P 30 "Alarm frame triggers" 1 [V 1 127 ""]].
Definition dpar253 : list gparam := [P 1 "Enable/Disable ALL ON/OFF" 1 [V (-1) (-1) "ALL ON active / ALL OFF active"; V 0 0 "ALL ON disabled/ ALL OFF disabled"; V 1 1 "ALL ON disabled/ ALL OFF active"; V 2 2 "ALL ON active / ALL OFF disabled"]; P 10 "Control key #2 behaviour" 1 [V 0 0 "Turning on the shutter positioning function - Default"; V 1 1 "Turning off the shutter positioning function"]; P 14 "Inputs Button/Switch configuration" 1 [V 0 0 "Mono-stable input (button)"; V 1 1 "Bi-stable input (switch)"; V 2 2 "Single Mono-stable switch"]; P 20 "Dimmer/Roller shutter control" 1 [V 0 255 ""]; P 30 "General Alarm" 1 [V 0 0 "DEACTIVATION"; V 1 1 "OPEN SHUTTER ALARM"; V 2 2 "CLOSED SHUTTER ALARM"]; P 31 "Alarm of flooding with water" 1 [V 0 0 "DEACTIVATION"; V 1 1 "OPEN SHUTTER ALARM"; V 2 2 "CLOSED SHUTTER ALARM"]; P 32 "Smoke, CO, CO2 Alarm." 1 [V 0 0 "DEACTIVATION"; V 1 1 "OPEN SHUTTER ALARM"; V 2 2 "CLOSED SHUTTER ALARM"]; P 33 "Temperature Alarm" 1 [V 0 0 "DEACTIVATION"; V 1 1 "OPEN SHUTTER ALARM"; V 2 2 "CLOSED SHUTTER ALARM"]; P 41 "Scene activation functionality" 1 [V 0 0 "Deactivation of functionality - Default"; V 1 1 "Activation of functionality"]].
Definition dpar254 : list gparam := [P 1 "Enable/Disable ALL ON/OFF" 1 [V (-1) (-1) "ALL ON active / ALL OFF active"; V 0 0 "ALL ON disabled/ ALL OFF disabled"; V 1 1 "ALL ON disabled/ ALL OFF active"; V 2 2 "ALL ON active / ALL OFF disabled"]; P 10 "Control key #2 behaviour" 1 [V 0 0 "Turning on the shutter positioning function - Default"; V 1 1 "Turning off the shutter positioning function"]; P 14 "Inputs Button/Switch configuration" 1 [V 0 0 "Mono-stable input (button)"; V 1 1 "Bi-stable input (switch)"; V 2 2 "Single Mono-stable switch"]; P 20 "Dimmer/Roller shutter control" 1 [V 0 255 ""]; P 30 "General Alarm" 1 [V 0 0 "DEACTIVATION"; V 1 1 "OPEN SHUTTER ALARM"; V 2 2 "CLOSED SHUTTER ALARM"]; P 31 "Alarm of flooding with water" 1 [V 0 0 "DEACTIVATION"; V 1 1 "OPEN SHUTTER ALARM"; V 2 2 "CLOSED SHUTTER ALARM"]; P 32 "Smoke, CO, CO2 Alarm." 1 [V 0 0 "DEACTIVATION"; V 1 1 "OPEN SHUTTER ALARM"; V 2 2 "CLOSED SHUTTER ALARM"]; P 33 "Temperature Alarm" 1 [V 0 0 "DEACTIVATION"; V 1 1 "OPEN SHUTTER ALARM"; V 2 2 "CLOSED SHUTTER ALARM"]; P 41 "Scene activation functionality" 1 [V 0 0 "Deactivation of functionality - Default"; V 1 1 "Activation of functionality"]].
Definition dpar255 : list gparam := [P 1 "Enable/Disable ALL ON/OFF" 1 [V (-1) (-1) "ALL ON active / ALL OFF active"; V 0 0 "ALL ON disabled/ ALL OFF disabled"; V 1 1 "ALL ON disabled/ ALL OFF active"; V 2 2 "ALL ON active / ALL OFF disabled"]; P 10 "Control key #2 behaviour" 1 [V 0 0 "Turning on the shutter positioning function - Default"; V 1 1 "Turning off the shutter positioning function"]; P 14 "Inputs Button/Switch configuration" 1 [V 0 0 "Mono-stable input (button)"; V 1 1 "Bi-stable input (switch)"; V 2 2 "Single Mono-stable switch"]; P 20 "Dimmer/Roller shutter control" 1 [V 0 255 ""]; P 30 "General Alarm" 1 [V 0 0 "DEACTIVATION"; V 1 1 "OPEN SHUTTER ALARM"; V 2 2 "CLOSED SHUTTER ALARM"]; P 31 "Alarm of flooding with water" 1 [V 0 0 "DEACTIVATION"; V 1 1 "OPEN SHUTTER ALARM"; V 2 2 "CLOSED SHUTTER ALARM"]; P 32 "Smoke, CO, CO2 Alarm." 1 [V 0 0 "DEACTIVATION"; V 1 1 "OPEN SHUTTER ALARM"; V 2 2 "CLOSED SHUTTER ALARM"]; P 33 "Temperature Alarm" 1 [V 0 0 "DEACTIVATION"; V 1 1 "OPEN SHUTTER ALARM"; V 2 2 "CLOSED SHUTTER ALARM"]; P 41 "Scene activation functionality" 1 [V 0 0 "Deactivation of functionality - Default"; V 1 1 "Activation of functionality"]].
Definition dpar256 : list gparam := [P 1 "Enable/Disable ALL ON/OFF" 1 [V (-1) (-1) "ALL ON active / ALL OFF active"; V 0 0 "ALL ON disabled/ ALL OFF disabled"; V 1 1 "ALL ON disabled/ ALL OFF active"; V 2 2 "ALL ON active / ALL OFF disabled"]; P 10 "Control key #2 behaviour" 1 [V 0 0 "Turning on the shutter positioning function - Default"; V 1 1 "Turning off the shutter positioning function"]; P 14 "Inputs Button/Switch configuration" 1 [V 0 0 "Mono-stable input (button)"; V 1 1 "Bi-stable input (switch)"; V 2 2 "Single Mono-stable switch"]; P 20 "Dimmer/Roller shutter control" 1 [V 0 255 ""]; P 30 "General Alarm" 1 [V 0 0 "DEACTIVATION"; V 1 1 "OPEN SHUTTER ALARM"; V 2 2 "CLOSED SHUTTER ALARM"]; P 31 "Alarm of flooding with water" 1 [V 0 0 "DEACTIVATION"; V 1 1 "OPEN SHUTTER ALARM"; V 2 2 "CLOSED SHUTTER ALARM"]; P 32 "Smoke, CO, CO2 Alarm." 1 [V 0 0 "DEACTIVATION"; V 1 1 "OPEN SHUTTER ALARM"; V 2 2 "CLOSED SHUTTER ALARM"]; P 33 "Temperature Alarm" 1 [V 0 0 "DEACTIVATION"; V 1 1 "OPEN SHUTTER ALARM"; V 2 2 "CLOSED SHUTTER ALARM"]; P 41 "Scene activation functionality" 1 [V 0 0 "Deactivation of functionality - Default"; V 1 1 "Activation of functionality"]].
Definition dpar257 : list gparam := [P 1 "Enable/Disable ALL ON/OFF" 1 [V (-1) (-1) "ALL ON active / ALL OFF active"; V 0 0 "ALL ON disabled/ ALL OFF disabled"; V 1 1 "ALL ON disabled/ ALL OFF active"; V 2 2 "ALL ON active / ALL OFF disabled"]; P 10 "Control key #2 behaviour" 1 [V 0 0 "Turning on the shutter positioning function - Default"; V 1 1 "Turning off the shutter positioning function"]; P 14 "Inputs Button/Switch configuration" 1 [V 0 0 "Mono-stable input (button)"; V 1 1 "Bi-stable input (switch)"; V 2 2 "Single Mono-stable switch"]; P 20 "Dimmer/Roller shutter control" 1 [V 0 255 ""]; P 30 "General Alarm" 1 [V 0 0 "DEACTIVATION"; V 1 1 "OPEN SHUTTER ALARM"; V 2 2 "CLOSED SHUTTER ALARM"]; P 31 "Alarm of flooding with water" 1 [V 0 0 "DEACTIVATION"; V 1 1 "OPEN SHUTTER ALARM"; V 2 2 "CLOSED SHUTTER ALARM"]; P 32 "Smoke, CO, CO2 Alarm." 1 [V 0 0 "DEACTIVATION"; V 1 1 "OPEN SHUTTER ALARM"; V 2 2 "CLOSED SHUTTER ALARM"]; P 33 "Temperature Alarm" 1 [V 0 0 "DEACTIVATION"; V 1 1 "OPEN SHUTTER ALARM"; V 2 2 "CLOSED SHUTTER ALARM"]; P 41 "Scene activation functionality" 1 [V 0 0 "Deactivation of functionality - Default"; V 1 1 "Activation of functionality"]].
Definition dpar258 : list gparam := [P 1 "ALL ON / ALL OFF function activation" 1 [V (-1) (-1) "ALL ON active ALL OFF active"; V 0 0 "ALL ON inactive ALL OFF inactive"; V 1 1 "ALL ON inactive ALL OFF active"; V 2 2 "ALL ON active ALL OFF inactive"]; P 6 "Associations command class choice" 1 [V 0 0 "Normal (Dimmer) - BASIC_SET/SWITCH_MULTILEVEL_START/STOP"; V 1 1 "Normal (RGBW) - COLOR_CONTROL_SET/START/STOP_STATE_CHANGE"; V 2 2 "Normal (RGBW) - COLOR_CONTROL_SET"; V 3 3 "Brightness - BASIC_SET/SWITCH_MULTILEVEL_START/STOP"; V 4 4 "Rainbow (RGBW) - COLOR_CONTROL_SET"]; P 8 "Outputs state change mode" 1 [V 0 0 "MODE1 (related parameters: 9-step value, 10-time between steps)"; V 1 1 "MODE2 (related parameters: 11-time to change value, relevant for RGB/R"]; P 9 "Step value (relevant for MODE1)" 1 [V 1 255 ""]; P 10 "Time between steps (relevant for MODE1)" 2 [V 0 60000 ""]; P 11 "Time for changing from start to end value" 1 [V 1 255 ""]; P 12 "Maximum Brightening level" 1 [V 3 255 ""]; P 13 "Minimum dim level" 1 [V 3 255 ""]; P 14 "Inputs/Outputs configuration - relevant for main controllers other than Home Center 2 only" 2 [V 0 65535 ""]; P 16 "Remember device status after power failure" 1 [V 0 0 "Do not remember state"; V 1 1 "Remember state before power failure"]; P 30 "Alarm of any type (General alarm, flood alarm, smoke alarm: CO, CO2, temperature alarm.)" 1 [V 0 0 "INACTIVE - the device doesn't respond to alarm frames"; V 1 1 "ALARM ON - the device turns on once alarm is detected (all channels se"; V 2 2 "ALARM OFF - the device turns off once alarm is detected (all channels "; V 3 3 "ALARM PROGRAM - alarm sequence turns on (program selected in parameter"]; P 38 "Alarm sequence program" 1 [V 1 10 ""]; P 39 "Active PROGRAM alarm time" 2 [V 1 65534 ""]; P 42 "Command class reporting Outputs status change" 1 [V 0 0 "Reporting as a result of inputs and controllers actions (SWITCH MULTIL"; V 1 1 "Reporting as a result of inputs actions (SWITCH MULTILEVEL)"; V 2 2 "Reporting as a result of inputs actions (COLOR CONTROL)"]; P 43 "Reporting 0-10v analog inputs change threshold" 1 [V 1 100 ""]; P 44 "Power load reporting frequency" 2 [V 1 65534 ""]; P 45 "Reporting Changes in energy consumed by controlled devices" 1 [V 1 255 ""]; P 71 "Response to BRIGHTNESS set to 0%" 1 [V 0 0 "illumination colour set to white (all channels controlled together)"; V 1 1 "last set colour is memorized"]; P 72 "Starting animation program" 1 [V 1 10 ""]; P 73 "Triple click action" 1 [V 0 0 "NODE INFO control frame is sent"; V 1 1 "starting favourite program"]].
Definition dpar259 : list gparam := [P 1 "ALL ON / ALL OFF function activation" 1 [V (-1) (-1) "ALL ON active ALL OFF active"; V 0 0 "ALL ON inactive ALL OFF inactive"; V 1 1 "ALL ON inactive ALL OFF active"; V 2 2 "ALL ON active ALL OFF inactive"]; P 6 "Associations command class choice" 1 [V 0 0 "Normal (Dimmer) - BASIC_SET/SWITCH_MULTILEVEL_START/STOP"; V 1 1 "Normal (RGBW) - COLOR_CONTROL_SET/START/STOP_STATE_CHANGE"; V 2 2 "Normal (RGBW) - COLOR_CONTROL_SET"; V 3 3 "Brightness - BASIC_SET/SWITCH_MULTILEVEL_START/STOP"; V 4 4 "Rainbow (RGBW) - COLOR_CONTROL_SET"]; P 8 "Outputs state change mode" 1 [V 0 0 "MODE1 (related parameters: 9-step value, 10-time between steps)"; V 1 1 "MODE2 (related parameters: 11-time to change value, relevant for RGB/R"]; P 9 "Step value (relevant for MODE1)" 1 [V 1 255 ""]; P 10 "Time between steps (relevant for MODE1)" 2 [V 0 60000 ""]; P 11 "Time for changing from start to end value" 1 [V 1 255 ""]; P 12 "Maximum Brightening level" 1 [V 3 255 ""]; P 13 "Minimum dim level" 1 [V 3 255 ""]; P 14 "Inputs/Outputs configuration - relevant for main controllers other than Home Center 2 only" 2 [V 0 65535 ""]; P 16 "Remember device status after power failure" 1 [V 0 0 "Do not remember state"; V 1 1 "Remember state before power failure"]; P 30 "Alarm of any type (General alarm, flood alarm, smoke alarm: CO, CO2, temperature alarm.)" 1 [V 0 0 "INACTIVE - the device doesn't respond to alarm frames"; V 1 1 "ALARM ON - the device turns on once alarm is detected (all channels se"; V 2 2 "ALARM OFF - the device turns off once alarm is detected (all channels "; V 3 3 "ALARM PROGRAM - alarm sequence turns on (program selected in parameter"]; P 38 "Alarm sequence program" 1 [V 1 10 ""]; P 39 "Active PROGRAM alarm time" 2 [V 1 65534 ""]; P 42 "Command class reporting Outputs status change" 1 [V 0 0 "Reporting as a result of inputs and controllers actions (SWITCH MULTIL"; V 1 1 "Reporting as a result of inputs actions (SWITCH MULTILEVEL)"; V 2 2 "Reporting as a result of inputs actions (COLOR CONTROL)"]; P 43 "Reporting 0-10v analog inputs change threshold" 1 [V 1 100 ""]; P 44 "Power load reporting frequency" 2 [V 1 65534 ""]; P 45 "Reporting Changes in energy consumed by controlled devices" 1 [V 1 255 ""]; P 71 "Response to BRIGHTNESS set to 0%" 1 [V 0 0 "illumination colour set to white (all channels controlled together)"; V 1 1 "last set colour is memorized"]; P 72 "Starting animation program" 1 [V 1 10 ""]; P 73 "Triple click action" 1 [V 0 0 "NODE INFO control frame is sent"; V 1 1 "starting favourite program"]].
Definition dpar260 : list gparam := [P 1 "ALL ON / ALL OFF function activation" 1 [V (-1) (-1) "ALL ON active ALL OFF active"; V 0 0 "ALL ON inactive ALL OFF inactive"; V 1 1 "ALL ON inactive ALL OFF active"; V 2 2 "ALL ON active ALL OFF inactive"]; P 6 "Associations command class choice" 1 [V 0 0 "Normal (Dimmer) - BASIC_SET/SWITCH_MULTILEVEL_START/STOP"; V 1 1 "Normal (RGBW) - COLOR_CONTROL_SET/START/STOP_STATE_CHANGE"; V 2 2 "Normal (RGBW) - COLOR_CONTROL_SET"; V 3 3 "Brightness - BASIC_SET/SWITCH_MULTILEVEL_START/STOP"; V 4 4 "Rainbow (RGBW) - COLOR_CONTROL_SET"]; P 8 "Outputs state change mode" 1 [V 0 0 "MODE1 (related parameters: 9-step value, 10-time between steps)"; V 1 1 "MODE2 (related parameters: 11-time to change value, relevant for RGB/R"]; P 9 "Step value (relevant for MODE1)" 1 [V 1 255 ""]; P 10 "Time between steps (relevant for MODE1)" 2 [V 0 60000 ""]; P 11 "Time for changing from start to end value" 1 [V 1 255 ""]; P 12 "Maximum Brightening level" 1 [V 3 255 ""]; P 13 "Minimum dim level" 1 [V 3 255 ""]; P 14 "Inputs/Outputs configuration - relevant for main controllers other than Home Center 2 only" 2 [V 0 65535 ""]; P 16 "Remember device status after power failure" 1 [V 0 0 "Do not remember state"; V 1 1 "Remember state before power failure"]; P 30 "Alarm of any type (General alarm, flood alarm, smoke alarm: CO, CO2, temperature alarm.)" 1 [V 0 0 "INACTIVE - the device doesn't respond to alarm frames"; V 1 1 "ALARM ON - the device turns on once alarm is detected (all channels se"; V 2 2 "ALARM OFF - the device turns off once alarm is detected (all channels "; V 3 3 "ALARM PROGRAM - alarm sequence turns on (program selected in parameter"]; P 38 "Alarm sequence program" 1 [V 1 10 ""]; P 39 "Active PROGRAM alarm time" 2 [V 1 65534 ""]; P 42 "Command class reporting Outputs status change" 1 [V 0 0 "Reporting as a result of inputs and controllers actions (SWITCH MULTIL"; V 1 1 "Reporting as a result of inputs actions (SWITCH MULTILEVEL)"; V 2 2 "Reporting as a result of inputs actions (COLOR CONTROL)"]; P 43 "Reporting 0-10v analog inputs change threshold" 1 [V 1 100 ""]; P 44 "Power load reporting frequency" 2 [V 1 65534 ""]; P 45 "Reporting Changes in energy consumed by controlled devices" 1 [V 1 255 ""]; P 71 "Response to BRIGHTNESS set to 0%" 1 [V 0 0 "illumination colour set to white (all channels controlled together)"; V 1 1 "last set colour is memorized"]; P 72 "Starting animation program" 1 [V 1 10 ""]; P 73 "Triple click action" 1 [V 0 0 "NODE INFO control frame is sent"; V 1 1 "starting favourite program"]].
Definition dpar261 : list gparam := [P 1 "ALL ON / ALL OFF function activation" 1 [V (-1) (-1) "ALL ON active ALL OFF active"; V 0 0 "ALL ON inactive ALL OFF inactive"; V 1 1 "ALL ON inactive ALL OFF active"; V 2 2 "ALL ON active ALL OFF inactive"]; P 6 "Associations command class choice" 1 [V 0 0 "Normal (Dimmer) - BASIC_SET/SWITCH_MULTILEVEL_START/STOP"; V 1 1 "Normal (RGBW) - COLOR_CONTROL_SET/START/STOP_STATE_CHANGE"; V 2 2 "Normal (RGBW) - COLOR_CONTROL_SET"; V 3 3 "Brightness - BASIC_SET/SWITCH_MULTILEVEL_START/STOP"; V 4 4 "Rainbow (RGBW) - COLOR_CONTROL_SET"]; P 8 "Outputs state change mode" 1 [V 0 0 "MODE1 (related parameters: 9-step value, 10-time between steps)"; V 1 1 "MODE2 (related parameters: 11-time to change value, relevant for RGB/R"]; P 9 "Step value (relevant for MODE1)" 1 [V 1 255 ""]; P 10 "Time between steps (relevant for MODE1)" 2 [V 0 60000 ""]; P 11 "Time for changing from start to end value" 1 [V 1 255 ""]; P 12 "Maximum Brightening level" 1 [V 3 255 ""]; P 13 "Minimum dim level" 1 [V 3 255 ""]; P 14 "Inputs/Outputs configuration - relevant for main controllers other than Home Center 2 only" 2 [V 0 65535 ""]; P 16 "Remember device status after power failure" 1 [V 0 0 "Do not remember state"; V 1 1 "Remember state before power failure"]; P 30 "Alarm of any type (General alarm, flood alarm, smoke alarm: CO, CO2, temperature alarm.)" 1 [V 0 0 "INACTIVE - the device doesn't respond to alarm frames"; V 1 1 "ALARM ON - the device turns on once alarm is detected (all channels se"; V 2 2 "ALARM OFF - the device turns off once alarm is detected (all channels "; V 3 3 "ALARM PROGRAM - alarm sequence turns on (program selected in parameter"]; P 38 "Alarm sequence program" 1 [V 1 10 ""]; P 39 "Active PROGRAM alarm time" 2 [V 1 65534 ""]; P 42 "Command class reporting Outputs status change" 1 [V 0 0 "Reporting as a result of inputs and controllers actions (SWITCH MULTIL"; V 1 1 "Reporting as a result of inputs actions (SWITCH MULTILEVEL)"; V 2 2 "Reporting as a result of inputs actions (COLOR CONTROL)"]; P 43 "Reporting 0-10v analog inputs change threshold" 1 [V 1 100 ""]; P 44 "Power load reporting frequency" 2 [V 1 65534 ""]; P 45 "Reporting Changes in energy consumed by controlled devices" 1 [V 1 255 ""]; P 71 "Response to BRIGHTNESS set to 0%" 1 [V 0 0 "illumination colour set to white (all channels controlled together)"; V 1 1 "last set colour is memorized"]; P 72 "Starting animation program" 1 [V 1 10 ""]; P 73 "Triple click action" 1 [V 0 0 "NODE INFO control frame is sent"; V 1 1 "starting favourite program"]].
Definition dpar262 : list gparam := [P 1 "Local protection" 1 [V 0 0 "No protection. Roller Shutter responds to push buttons"; V 2 2 "Local protection active. Roller Shutter does not respond to push butto"]; P 2 "Radio protection" 1 [V 0 0 "No protection. Roller Shutter responds to command frames."; V 1 1 "RF Protection active. Roller Shutter does not respond to the Z-Wave co"]; P 3 "Reports type" 1 [V 0 0 "Blind position reports sent to the main controller using Z-Wave Comman"; V 1 1 "Blind position reports sent to the main controller using Fibar Command"]; P 10 "Roller Shutter operating modes" 1 [V 0 0 "Roller Blind Mode, without positioning"; V 1 1 "Roller Blind Mode, with positioning"; V 2 2 "Venetian Blind Mode, with positioning"; V 3 3 "Gate Mode, without positioning"; V 4 4 "Gate Mode, with positioning"]; P 12 "Turning time/ delay time" 2 [V 0 65535 ""]; P 13 "Lamellas positioning mode" 1 [V 0 0 "Lamellas return to previously set position only in case of the main co"; V 1 1 "Lamellas return to previously set position in case of the main control"; V 2 2 "Lamellas return to previously set position in case of the main control"]; P 14 "Switch type" 1 [V 0 0 "Momentary switches"; V 1 1 "Toggle switches"; V 2 2 "Single, momentary switch."]; P 17 "Delay time after S2" 1 [V 0 255 ""]; P 18 "Motor operation detection" 1 [V 0 255 ""]; P 22 "Motor operation time" 2 [V 0 65535 ""]; P 29 "Forced Roller Shutter calibration" 1 [V 0 0 "Deactivated"; V 1 1 "Start calibration process"]; P 30 "Response to General Alarm" 1 [V 0 0 "No response to alarm frames"; V 1 1 "Open Blind"; V 2 2 "Close Blind"]; P 31 "Response to Water Flood Alarm" 1 [V 0 0 "No response to alarm frames"; V 1 1 "Open Blind"; V 2 2 "Close Blind"]; P 32 "Response to Smoke, CO, CO2 Alarm" 1 [V 0 0 "No response to alarm frames"; V 1 1 "Open Blind"; V 2 2 "Close Blind"]; P 33 "Response to Temperature Alarm" 1 [V 0 0 "No response to alarm frames"; V 1 1 "Open Blind"; V 2 2 "Close Blind"]; P 35 "Managing lamellas in response to alarm" 1 [V 0 0 "Do not change lamellas position"; V 1 1 "Set lamellas to their extreme position"]; P 40 "Power reports" 1 [V 0 100 ""]; P 42 "Periodic power or energy reports" 2 [V (-32767) 32767 ""]; P 43 "Energy reports" 1 [V (-126) 127 ""]; P 44 "Self-measurement" 1 [V 0 0 "Disabled"; V 1 1 "Activated"]; P 50 "Scenes/ Associations activation" 1 [V 0 0 "Associations Active"; V 1 1 "Scenes Active"]].
Definition dpar263 : list gparam := [P 1 "Local protection" 1 [V 0 0 "No protection. Roller Shutter responds to push buttons"; V 2 2 "Local protection active. Roller Shutter does not respond to push butto"]; P 2 "Radio protection" 1 [V 0 0 "No protection. Roller Shutter responds to command frames."; V 1 1 "RF Protection active. Roller Shutter does not respond to the Z-Wave co"]; P 3 "Reports type" 1 [V 0 0 "Blind position reports sent to the main controller using Z-Wave Comman"; V 1 1 "Blind position reports sent to the main controller using Fibar Command"]; P 10 "Roller Shutter operating modes" 1 [V 0 0 "Roller Blind Mode, without positioning"; V 1 1 "Roller Blind Mode, with positioning"; V 2 2 "Venetian Blind Mode, with positioning"; V 3 3 "Gate Mode, without positioning"; V 4 4 "Gate Mode, with positioning"]; P 12 "Turning time/ delay time" 2 [V 0 65535 ""]; P 13 "Lamellas positioning mode" 1 [V 0 0 "Lamellas return to previously set position only in case of the main co"; V 1 1 "Lamellas return to previously set position in case of the main control"; V 2 2 "Lamellas return to previously set position in case of the main control"]; P 14 "Switch type" 1 [V 0 0 "Momentary switches"; V 1 1 "Toggle switches"; V 2 2 "Single, momentary switch."]; P 17 "Delay time after S2" 1 [V 0 255 ""]; P 18 "Motor operation detection" 1 [V 0 255 ""]; P 22 "Motor operation time" 2 [V 0 65535 ""]; P 29 "Forced Roller Shutter calibration" 1 [V 0 0 "Deactivated"; V 1 1 "Start calibration process"]; P 30 "Response to General Alarm" 1 [V 0 0 "No response to alarm frames"; V 1 1 "Open Blind"; V 2 2 "Close Blind"]; P 31 "Response to Water Flood Alarm" 1 [V 0 0 "No response to alarm frames"; V 1 1 "Open Blind"; V 2 2 "Close Blind"]; P 32 "Response to Smoke, CO, CO2 Alarm" 1 [V 0 0 "No response to alarm frames"; V 1 1 "Open Blind"; V 2 2 "Close Blind"]; P 33 "Response to Temperature Alarm" 1 [V 0 0 "No response to alarm frames"; V 1 1 "Open Blind"; V 2 2 "Close Blind"]; P 35 "Managing lamellas in response to alarm" 1 [V 0 0 "Do not change lamellas position"; V 1 1 "Set lamellas to their extreme position"]; P 40 "Power reports" 1 [V 0 100 ""]; P 42 "Periodic power or energy reports" 2 [V (-32767) 32767 ""]; P 43 "Energy reports" 1 [V (-126) 127 ""]; P 44 "Self-measurement" 1 [V 0 0 "Disabled"; V 1 1 "Activated"]; P 50 "Scenes/ Associations activation" 1 [V 0 0 "Associations Active"; V 1 1 "Scenes Active"]].
Definition dpar264 : list gparam := [P 1 "Local protection" 1 [V 0 0 "No protection. Roller Shutter responds to push buttons"; V 2 2 "Local protection active. Roller Shutter does not respond to push butto"]; P 2 "Radio protection" 1 [V 0 0 "No protection. Roller Shutter responds to command frames."; V 1 1 "RF Protection active. Roller Shutter does not respond to the Z-Wave co"]; P 3 "Reports type" 1 [V 0 0 "Blind position reports sent to the main controller using Z-Wave Comman"; V 1 1 "Blind position reports sent to the main controller using Fibar Command"]; P 10 "Roller Shutter operating modes" 1 [V 0 0 "Roller Blind Mode, without positioning"; V 1 1 "Roller Blind Mode, with positioning"; V 2 2 "Venetian Blind Mode, with positioning"; V 3 3 "Gate Mode, without positioning"; V 4 4 "Gate Mode, with positioning"]; P 12 "Turning time/ delay time" 2 [V 0 65535 ""]; P 13 "Lamellas positioning mode" 1 [V 0 0 "Lamellas return to previously set position only in case of the main co"; V 1 1 "Lamellas return to previously set position in case of the main control"; V 2 2 "Lamellas return to previously set position in case of the main control"]; P 14 "Switch type" 1 [V 0 0 "Momentary switches"; V 1 1 "Toggle switches"; V 2 2 "Single, momentary switch."]; P 17 "Delay time after S2" 1 [V 0 255 ""]; P 18 "Motor operation detection" 1 [V 0 255 ""]; P 22 "Motor operation time" 2 [V 0 65535 ""]; P 29 "Forced Roller Shutter calibration" 1 [V 0 0 "Deactivated"; V 1 1 "Start calibration process"]; P 30 "Response to General Alarm" 1 [V 0 0 "No response to alarm frames"; V 1 1 "Open Blind"; V 2 2 "Close Blind"]; P 31 "Response to Water Flood Alarm" 1 [V 0 0 "No response to alarm frames"; V 1 1 "Open Blind"; V 2 2 "Close Blind"]; P 32 "Response to Smoke, CO, CO2 Alarm" 1 [V 0 0 "No response to alarm frames"; V 1 1 "Open Blind"; V 2 2 "Close Blind"]; P 33 "Response to Temperature Alarm" 1 [V 0 0 "No response to alarm frames"; V 1 1 "Open Blind"; V 2 2 "Close Blind"]; P 35 "Managing lamellas in response to alarm" 1 [V 0 0 "Do not change lamellas position"; V 1 1 "Set lamellas to their extreme position"]; P 40 "Power reports" 1 [V 0 100 ""]; P 42 "Periodic power or energy reports" 2 [V (-32767) 32767 ""]; P 43 "Energy reports" 1 [V (-126) 127 ""]; P 44 "Self-measurement" 1 [V 0 0 "Disabled"; V 1 1 "Activated"]; P 50 "Scenes/ Associations activation" 1 [V 0 0 "Associations Active"; V 1 1 "Scenes Active"]].
Definition dpar265 : list gparam := [P 3 "Reports type" 1 [V 0 0 "Blind position using Z-Wave Command"; V 1 1 "Blind position via Fibar Command"]; P 10 "Roller Shutter operating modes" 1 [V 0 0 "Roller Blind Mode, without positioning"; V 1 1 "Roller Blind Mode, with positioning"; V 2 2 "Venetian Blind Mode, with positioning"; V 3 3 "Gate Mode, without positioning"; V 4 4 "Gate Mode, with positioning"]; P 12 "Turning time/ delay time" 2 [V 0 65535 ""]; P 13 "Lamellas positioning mode" 1 [V 0 0 "only in case of the main controller operation"; V 1 1 "default - controller+switchlimit"; V 2 2 "like 1 + STOP control frame"]; P 14 "Switch type" 1 [V 0 0 "Momentary switches"; V 1 1 "Toggle switches"; V 2 2 "Single, momentary switch."]; P 17 "Delay time after S2" 1 [V 0 255 ""]; P 18 "Motor operation detection" 1 [V 0 255 ""]; P 22 "Motor operation time" 2 [V 0 65535 ""]; P 29 "Forced Roller Shutter calibration" 1 [V 0 0 "Deactivated"; V 1 1 "Start calibration process"]; P 30 "Response to General Alarm" 1 [V 0 0 "No response to alarm frames"; V 1 1 "Open Blind"; V 2 2 "Close Blind"]; P 31 "Response to Water Flood Alarm" 1 [V 0 0 "No response to alarm frames"; V 1 1 "Open Blind"; V 2 2 "Close Blind"]; P 32 "Response to Smoke, CO, CO2 Alarm" 1 [V 0 0 "No response to alarm frames"; V 1 1 "Open Blind"; V 2 2 "Close Blind"]; P 33 "Response to Temperature Alarm" 1 [V 0 0 "No response to alarm frames"; V 1 1 "Open Blind"; V 2 2 "Close Blind"]; P 35 "Managing lamellas in response to alarm" 1 [V 0 0 "Do not change lamellas position"; V 1 1 "Set lamellas to their extreme position"]; P 40 "Power reports" 1 [V 0 100 ""]; P 42 "Periodic power or energy reports" 2 [V 0 65534 ""]; P 43 "Energy reports" 1 [V 0 254 ""]; P 44 "Self-measurement" 1 [V 0 0 "Disabled"; V 1 1 "Activated"]; P 50 "Scenes/ Associations activation" 1 [V 0 0 "Associations Active"; V 1 1 "Scenes Active"]].
Definition dpar266 : list gparam := [P 1 "Enable/Disable ALL ON/OFF" 1 [V (-1) (-1) "ALL ON active / ALL OFF active"; V 0 0 "ALL ON disabled / ALL OFF disabled"; V 1 1 "ALL ON disabled / ALL OFF active"; V 2 2 "ALL ON active / ALL OFF disabled"]; P 3 "Enable/Disable OFF-delay" 1 [V 0 0 "Auto OFF disabled for both relays"; V 1 1 "Auto OFF active only for relay 1"]; P 4 "Relay 1: OFF-delay time (10ms steps)" 1 [V 0 255 ""]; P 6 "Separation of association sending (key 1)" 1 [V 0 0 "Map status to all devices in group 1"; V 1 1 "Map OFF status to all devices in group 1, Double click on key 1 will s"; V 2 2 "Map OFF status to all devices in group 1, Double click on key 1 will s"]; P 13 "Inputs behaviour" 1 [V 0 0 "Toggle"; V 1 1 "Follow switch contact (closed=ON, open=OFF)"]; P 14 "Inputs Button/Switch configuration" 1 [V 0 0 "Mono-stable input (button)"; V 1 1 "Bi-stable input (switch)"]; P 15 "Dimmer/Roller shutter control" 1 [V 0 0 "Disable Dimmer/Roller shutter control"; V 1 1 "Enable Dimmer/Roller shutter control"]; P 16 "Saving state before power failure" 1 [V 0 0 "State NOT saved at power failure, all outputs are set to OFF upon powe"; V 1 1 "State saved at power failure, all outputs are set to previous state up"]; P 30 "Relay 1: Response to General Alarm" 1 [V 0 0 "DEACTIVATION - no response to alarm frames"; V 1 1 "ALARM RELAY ON - relay will turn ON upon receipt of alarm frame"; V 2 2 "ALARM RELAY OFF - relay will turn OFF upon receipt of alarm frame"; V 3 3 "ALARM FLASHING - relay will turn ON and OFF periodically (see param.39"]; P 31 "Relay 1: Response to Water Flood Alarm" 1 [V 0 0 "DEACTIVATION - no response to alarm frames"; V 1 1 "ALARM RELAY ON - relay will turn ON upon receipt of alarm frame"; V 2 2 "ALARM RELAY OFF - relay will turn OFF upon receipt of alarm frame"; V 3 3 "ALARM FLASHING - relay will turn ON and OFF periodically (see param.39"]; P 32 "Relay 1: Response to Smoke, CO, CO2 Alarm" 1 [V 0 0 "DEACTIVATION - no response to alarm frames"; V 1 1 "ALARM RELAY ON - relay will turn ON upon receipt of alarm frame"; V 2 2 "ALARM RELAY OFF - relay will turn OFF upon receipt of alarm frame"; V 3 3 "ALARM FLASHING - relay will turn ON and OFF periodically (see param.39"]; P 33 "Relay 1: Response to Temperature Alarm" 1 [V 0 0 "DEACTIVATION - no response to alarm frames"; V 1 1 "ALARM RELAY ON - relay will turn ON upon receipt of alarm frame"; V 2 2 "ALARM RELAY OFF - relay will turn OFF upon receipt of alarm frame"; V 3 3 "ALARM FLASHING - relay will turn ON and OFF periodically (see param.39"]; P 39 "ALARM FLASHING alarm time" 2 [V 0 65535 ""]].
Definition dpar267 : list gparam := [P 1 "Enable/Disable ALL ON/OFF" 1 [V (-1) (-1) "ALL ON active / ALL OFF active"; V 0 0 "ALL ON disabled / ALL OFF disabled"; V 1 1 "ALL ON disabled / ALL OFF active"; V 2 2 "ALL ON active / ALL OFF disabled"]; P 3 "Enable/Disable OFF-delay" 1 [V 0 0 "Auto OFF disabled for both relays"; V 1 1 "Auto OFF active only for relay 1"]; P 4 "Relay 1: OFF-delay time (10ms steps)" 1 [V 0 255 ""]; P 6 "Separation of association sending (key 1)" 1 [V 0 0 "Map status to all devices in group 1"; V 1 1 "Map OFF status to all devices in group 1, Double click on key 1 will s"; V 2 2 "Map OFF status to all devices in group 1, Double click on key 1 will s"]; P 13 "Inputs behaviour" 1 [V 0 0 "Toggle"; V 1 1 "Follow switch contact (closed=ON, open=OFF)"]; P 14 "Inputs Button/Switch configuration" 1 [V 0 0 "Mono-stable input (button)"; V 1 1 "Bi-stable input (switch)"]; P 15 "Dimmer/Roller shutter control" 1 [V 0 0 "Disable Dimmer/Roller shutter control"; V 1 1 "Enable Dimmer/Roller shutter control"]; P 16 "Saving state before power failure" 1 [V 0 0 "State NOT saved at power failure, all outputs are set to OFF upon powe"; V 1 1 "State saved at power failure, all outputs are set to previous state up"]; P 30 "Relay 1: Response to General Alarm" 1 [V 0 0 "DEACTIVATION - no response to alarm frames"; V 1 1 "ALARM RELAY ON - relay will turn ON upon receipt of alarm frame"; V 2 2 "ALARM RELAY OFF - relay will turn OFF upon receipt of alarm frame"; V 3 3 "ALARM FLASHING - relay will turn ON and OFF periodically (see param.39"]; P 31 "Relay 1: Response to Water Flood Alarm" 1 [V 0 0 "DEACTIVATION - no response to alarm frames"; V 1 1 "ALARM RELAY ON - relay will turn ON upon receipt of alarm frame"; V 2 2 "ALARM RELAY OFF - relay will turn OFF upon receipt of alarm frame"; V 3 3 "ALARM FLASHING - relay will turn ON and OFF periodically (see param.39"]; P 32 "Relay 1: Response to Smoke, CO, CO2 Alarm" 1 [V 0 0 "DEACTIVATION - no response to alarm frames"; V 1 1 "ALARM RELAY ON - relay will turn ON upon receipt of alarm frame"; V 2 2 "ALARM RELAY OFF - relay will turn OFF upon receipt of alarm frame"; V 3 3 "ALARM FLASHING - relay will turn ON and OFF periodically (see param.39"]; P 33 "Relay 1: Response to Temperature Alarm" 1 [V 0 0 "DEACTIVATION - no response to alarm frames"; V 1 1 "ALARM RELAY ON - relay will turn ON upon receipt of alarm frame"; V 2 2 "ALARM RELAY OFF - relay will turn OFF upon receipt of alarm frame"; V 3 3 "ALARM FLASHING - relay will turn ON and OFF periodically (see param.39"]; P 39 "ALARM FLASHING alarm time" 2 [V 0 65535 ""]].
Definition dpar268 : list gparam := [P 1 "Enable/Disable ALL ON/OFF" 1 [V (-1) (-1) "ALL ON active / ALL OFF active"; V 0 0 "ALL ON disabled / ALL OFF disabled"; V 1 1 "ALL ON disabled / ALL OFF active"; V 2 2 "ALL ON active / ALL OFF disabled"]; P 3 "Enable/Disable OFF-delay" 1 [V 0 0 "Auto OFF disabled for both relays"; V 1 1 "Auto OFF active only for relay 1"]; P 4 "Relay 1: OFF-delay time (10ms steps)" 1 [V 0 255 ""]; P 6 "Separation of association sending (key 1)" 1 [V 0 0 "Map status to all devices in group 1"; V 1 1 "Map OFF status to all devices in group 1, Double click on key 1 will s"; V 2 2 "Map OFF status to all devices in group 1, Double click on key 1 will s"]; P 13 "Inputs behaviour" 1 [V 0 0 "Toggle"; V 1 1 "Follow switch contact (closed=ON, open=OFF)"]; P 14 "Inputs Button/Switch configuration" 1 [V 0 0 "Mono-stable input (button)"; V 1 1 "Bi-stable input (switch)"]; P 15 "Dimmer/Roller shutter control" 1 [V 0 0 "Disable Dimmer/Roller shutter control"; V 1 1 "Enable Dimmer/Roller shutter control"]; P 16 "Saving state before power failure" 1 [V 0 0 "State NOT saved at power failure, all outputs are set to OFF upon powe"; V 1 1 "State saved at power failure, all outputs are set to previous state up"]; P 30 "Relay 1: Response to General Alarm" 1 [V 0 0 "DEACTIVATION - no response to alarm frames"; V 1 1 "ALARM RELAY ON - relay will turn ON upon receipt of alarm frame"; V 2 2 "ALARM RELAY OFF - relay will turn OFF upon receipt of alarm frame"; V 3 3 "ALARM FLASHING - relay will turn ON and OFF periodically (see param.39"]; P 31 "Relay 1: Response to Water Flood Alarm" 1 [V 0 0 "DEACTIVATION - no response to alarm frames"; V 1 1 "ALARM RELAY ON - relay will turn ON upon receipt of alarm frame"; V 2 2 "ALARM RELAY OFF - relay will turn OFF upon receipt of alarm frame"; V 3 3 "ALARM FLASHING - relay will turn ON and OFF periodically (see param.39"]; P 32 "Relay 1: Response to Smoke, CO, CO2 Alarm" 1 [V 0 0 "DEACTIVATION - no response to alarm frames"; V 1 1 "ALARM RELAY ON - relay will turn ON upon receipt of alarm frame"; V 2 2 "ALARM RELAY OFF - relay will turn OFF upon receipt of alarm frame"; V 3 3 "ALARM FLASHING - relay will turn ON and OFF periodically (see param.39"]; P 33 "Relay 1: Response to Temperature Alarm" 1 [V 0 0 "DEACTIVATION - no response to alarm frames"; V 1 1 "ALARM RELAY ON - relay will turn ON upon receipt of alarm frame"; V 2 2 "ALARM RELAY OFF - relay will turn OFF upon receipt of alarm frame"; V 3 3 "ALARM FLASHING - relay will turn ON and OFF periodically (see param.39"]; P 39 "ALARM FLASHING alarm time" 2 [V 0 65535 ""]].
Definition dpar269 : list gparam := [P 1 "Enable/Disable ALL ON/OFF" 1 [V (-1) (-1) "ALL ON active / ALL OFF active"; V 0 0 "ALL ON disabled / ALL OFF disabled"; V 1 1 "ALL ON disabled / ALL OFF active"; V 2 2 "ALL ON active / ALL OFF disabled"]; P 3 "Enable/Disable OFF-delay" 1 [V 0 0 "Auto OFF disabled for both relays"; V 1 1 "Auto OFF active only for relay 1"]; P 4 "Relay 1: OFF-delay time (10ms steps)" 1 [V 0 255 ""]; P 6 "Separation of association sending (key 1)" 1 [V 0 0 "Map status to all devices in group 1"; V 1 1 "Map OFF status to all devices in group 1, Double click on key 1 will s"; V 2 2 "Map OFF status to all devices in group 1, Double click on key 1 will s"]; P 13 "Inputs behaviour" 1 [V 0 0 "Toggle"; V 1 1 "Follow switch contact (closed=ON, open=OFF)"]; P 14 "Inputs Button/Switch configuration" 1 [V 0 0 "Mono-stable input (button)"; V 1 1 "Bi-stable input (switch)"]; P 15 "Dimmer/Roller shutter control" 1 [V 0 0 "Disable Dimmer/Roller shutter control"; V 1 1 "Enable Dimmer/Roller shutter control"]; P 16 "Saving state before power failure" 1 [V 0 0 "State NOT saved at power failure, all outputs are set to OFF upon powe"; V 1 1 "State saved at power failure, all outputs are set to previous state up"]; P 30 "Relay 1: Response to General Alarm" 1 [V 0 0 "DEACTIVATION - no response to alarm frames"; V 1 1 "ALARM RELAY ON - relay will turn ON upon receipt of alarm frame"; V 2 2 "ALARM RELAY OFF - relay will turn OFF upon receipt of alarm frame"; V 3 3 "ALARM FLASHING - relay will turn ON and OFF periodically (see param.39"]; P 31 "Relay 1: Response to Water Flood Alarm" 1 [V 0 0 "DEACTIVATION - no response to alarm frames"; V 1 1 "ALARM RELAY ON - relay will turn ON upon receipt of alarm frame"; V 2 2 "ALARM RELAY OFF - relay will turn OFF upon receipt of alarm frame"; V 3 3 "ALARM FLASHING - relay will turn ON and OFF periodically (see param.39"]; P 32 "Relay 1: Response to Smoke, CO, CO2 Alarm" 1 [V 0 0 "DEACTIVATION - no response to alarm frames"; V 1 1 "ALARM RELAY ON - relay will turn ON upon receipt of alarm frame"; V 2 2 "ALARM RELAY OFF - relay will turn OFF upon receipt of alarm frame"; V 3 3 "ALARM FLASHING - relay will turn ON and OFF periodically (see param.39"]; P 33 "Relay 1: Response to Temperature Alarm" 1 [V 0 0 "DEACTIVATION - no response to alarm frames"; V 1 1 "ALARM RELAY ON - relay will turn ON upon receipt of alarm frame"; V 2 2 "ALARM RELAY OFF - relay will turn OFF upon receipt of alarm frame"; V 3 3 "ALARM FLASHING - relay will turn ON and OFF periodically (see param.39"]; P 39 "ALARM FLASHING alarm time" 2 [V 0 65535 ""]].
Definition dpar270 : list gparam := [P 1 "Enable/Disable ALL ON/OFF" 1 [V (-1) (-1) "ALL ON active / ALL OFF active"; V 0 0 "ALL ON disabled / ALL OFF disabled"; V 1 1 "ALL ON disabled / ALL OFF active"; V 2 2 "ALL ON active / ALL OFF disabled"]; P 3 "Enable/Disable OFF-delay" 1 [V 0 0 "Auto OFF disabled for both relays"; V 1 1 "Auto OFF active only for relay 1"]; P 4 "Relay 1: OFF-delay time (10ms steps)" 1 [V 0 255 ""]; P 6 "Separation of association sending (key 1)" 1 [V 0 0 "Map status to all devices in group 1"; V 1 1 "Map OFF status to all devices in group 1, Double click on key 1 will s"; V 2 2 "Map OFF status to all devices in group 1, Double click on key 1 will s"]; P 13 "Inputs behaviour" 1 [V 0 0 "Toggle"; V 1 1 "Follow switch contact (closed=ON, open=OFF)"]; P 14 "Inputs Button/Switch configuration" 1 [V 0 0 "Mono-stable input (button)"; V 1 1 "Bi-stable input (switch)"]; P 15 "Dimmer/Roller shutter control" 1 [V 0 0 "Disable Dimmer/Roller shutter control"; V 1 1 "Enable Dimmer/Roller shutter control"]; P 16 "Saving state before power failure" 1 [V 0 0 "State NOT saved at power failure, all outputs are set to OFF upon powe"; V 1 1 "State saved at power failure, all outputs are set to previous state up"]; P 30 "Relay 1: Response to General Alarm" 1 [V 0 0 "DEACTIVATION - no response to alarm frames"; V 1 1 "ALARM RELAY ON - relay will turn ON upon receipt of alarm frame"; V 2 2 "ALARM RELAY OFF - relay will turn OFF upon receipt of alarm frame"; V 3 3 "ALARM FLASHING - relay will turn ON and OFF periodically (see param.39"]; P 31 "Relay 1: Response to Water Flood Alarm" 1 [V 0 0 "DEACTIVATION - no response to alarm frames"; V 1 1 "ALARM RELAY ON - relay will turn ON upon receipt of alarm frame"; V 2 2 "ALARM RELAY OFF - relay will turn OFF upon receipt of alarm frame"; V 3 3 "ALARM FLASHING - relay will turn ON and OFF periodically (see param.39"]; P 32 "Relay 1: Response to Smoke, CO, CO2 Alarm" 1 [V 0 0 "DEACTIVATION - no response to alarm frames"; V 1 1 "ALARM RELAY ON - relay will turn ON upon receipt of alarm frame"; V 2 2 "ALARM RELAY OFF - relay will turn OFF upon receipt of alarm frame"; V 3 3 "ALARM FLASHING - relay will turn ON and OFF periodically (see param.39"]; P 33 "Relay 1: Response to Temperature Alarm" 1 [V 0 0 "DEACTIVATION - no response to alarm frames"; V 1 1 "ALARM RELAY ON - relay will turn ON upon receipt of alarm frame"; V 2 2 "ALARM RELAY OFF - relay will turn OFF upon receipt of alarm frame"; V 3 3 "ALARM FLASHING - relay will turn ON and OFF periodically (see param.39"]; P 39 "ALARM FLASHING alarm time" 2 [V 0 65535 ""]].
Definition dpar271 : list gparam := [P 1 "Enable/Disable ALL ON/OFF" 1 [V (-1) (-1) "ALL ON active / ALL OFF active"; V 0 0 "ALL ON disabled / ALL OFF disabled"; V 1 1 "ALL ON disabled / ALL OFF active"; V 2 2 "ALL ON active / ALL OFF disabled"]; P 3 "Enable/Disable OFF-delay" 1 [V 0 0 "Auto OFF disabled for both relays"; V 1 1 "Auto OFF active only for relay 1"]; P 4 "Relay 1: OFF-delay time (10ms steps)" 1 [V 0 255 ""]; P 6 "Separation of association sending (key 1)" 1 [V 0 0 "Map status to all devices in group 1"; V 1 1 "Map OFF status to all devices in group 1, Double click on key 1 will s"; V 2 2 "Map OFF status to all devices in group 1, Double click on key 1 will s"]; P 13 "Inputs behaviour" 1 [V 0 0 "Toggle"; V 1 1 "Follow switch contact (closed=ON, open=OFF)"]; P 14 "Inputs Button/Switch configuration" 1 [V 0 0 "Mono-stable input (button)"; V 1 1 "Bi-stable input (switch)"]; P 15 "Dimmer/Roller shutter control" 1 [V 0 0 "Disable Dimmer/Roller shutter control"; V 1 1 "Enable Dimmer/Roller shutter control"]; P 16 "Saving state before power failure" 1 [V 0 0 "State NOT saved at power failure, all outputs are set to OFF upon powe"; V 1 1 "State saved at power failure, all outputs are set to previous state up"]; P 30 "Relay 1: Response to General Alarm" 1 [V 0 0 "DEACTIVATION - no response to alarm frames"; V 1 1 "ALARM RELAY ON - relay will turn ON upon receipt of alarm frame"; V 2 2 "ALARM RELAY OFF - relay will turn OFF upon receipt of alarm frame"; V 3 3 "ALARM FLASHING - relay will turn ON and OFF periodically (see param.39"]; P 31 "Relay 1: Response to Water Flood Alarm" 1 [V 0 0 "DEACTIVATION - no response to alarm frames"; V 1 1 "ALARM RELAY ON - relay will turn ON upon receipt of alarm frame"; V 2 2 "ALARM RELAY OFF - relay will turn OFF upon receipt of alarm frame"; V 3 3 "ALARM FLASHING - relay will turn ON and OFF periodically (see param.39"]; P 32 "Relay 1: Response to Smoke, CO, CO2 Alarm" 1 [V 0 0 "DEACTIVATION - no response to alarm frames"; V 1 1 "ALARM RELAY ON - relay will turn ON upon receipt of alarm frame"; V 2 2 "ALARM RELAY OFF - relay will turn OFF upon receipt of alarm frame"; V 3 3 "ALARM FLASHING - relay will turn ON and OFF periodically (see param.39"]; P 33 "Relay 1: Response to Temperature Alarm" 1 [V 0 0 "DEACTIVATION - no response to alarm frames"; V 1 1 "ALARM RELAY ON - relay will turn ON upon receipt of alarm frame"; V 2 2 "ALARM RELAY OFF - relay will turn OFF upon receipt of alarm frame"; V 3 3 "ALARM FLASHING - relay will turn ON and OFF periodically (see param.39"]; P 39 "ALARM FLASHING alarm time" 2 [V 0 65535 ""]].
Definition dpar272 : list gparam := [P 1 "Enable/Disable ALL ON/OFF" 1 [V (-1) (-1) "ALL ON active / ALL OFF active"; V 0 0 "ALL ON disabled / ALL OFF disabled"; V 1 1 "ALL ON disabled / ALL OFF active"; V 2 2 "ALL ON active / ALL OFF disabled"]; P 3 "Enable/Disable OFF-delay" 1 [V 0 0 "Auto OFF disabled for both relays"; V 1 1 "Auto OFF active only for relay 1"]; P 4 "Relay 1: OFF-delay time (10ms steps)" 1 [V 0 255 ""]; P 6 "Separation of association sending (key 1)" 1 [V 0 0 "Map status to all devices in group 1"; V 1 1 "Map OFF status to all devices in group 1, Double click on key 1 will s"; V 2 2 "Map OFF status to all devices in group 1, Double click on key 1 will s"]; P 13 "Inputs behaviour" 1 [V 0 0 "Toggle"; V 1 1 "Follow switch contact (closed=ON, open=OFF)"]; P 14 "Inputs Button/Switch configuration" 1 [V 0 0 "Mono-stable input (button)"; V 1 1 "Bi-stable input (switch)"]; P 15 "Dimmer/Roller shutter control" 1 [V 0 0 "Disable Dimmer/Roller shutter control"; V 1 1 "Enable Dimmer/Roller shutter control"]; P 16 "Saving state before power failure" 1 [V 0 0 "State NOT saved at power failure, all outputs are set to OFF upon powe"; V 1 1 "State saved at power failure, all outputs are set to previous state up"]; P 30 "Relay 1: Response to General Alarm" 1 [V 0 0 "DEACTIVATION - no response to alarm frames"; V 1 1 "ALARM RELAY ON - relay will turn ON upon receipt of alarm frame"; V 2 2 "ALARM RELAY OFF - relay will turn OFF upon receipt of alarm frame"; V 3 3 "ALARM FLASHING - relay will turn ON and OFF periodically (see param.39"]; P 31 "Relay 1: Response to Water Flood Alarm" 1 [V 0 0 "DEACTIVATION - no response to alarm frames"; V 1 1 "ALARM RELAY ON - relay will turn ON upon receipt of alarm frame"; V 2 2 "ALARM RELAY OFF - relay will turn OFF upon receipt of alarm frame"; V 3 3 "ALARM FLASHING - relay will turn ON and OFF periodically (see param.39"]; P 32 "Relay 1: Response to Smoke, CO, CO2 Alarm" 1 [V 0 0 "DEACTIVATION - no response to alarm frames"; V 1 1 "ALARM RELAY ON - relay will turn ON upon receipt of alarm frame"; V 2 2 "ALARM RELAY OFF - relay will turn OFF upon receipt of alarm frame"; V 3 3 "ALARM FLASHING - relay will turn ON and OFF periodically (see param.39"]; P 33 "Relay 1: Response to Temperature Alarm" 1 [V 0 0 "DEACTIVATION - no response to alarm frames"; V 1 1 "ALARM RELAY ON - relay will turn ON upon receipt of alarm frame"; V 2 2 "ALARM RELAY OFF - relay will turn OFF upon receipt of alarm frame"; V 3 3 "ALARM FLASHING - relay will turn ON and OFF periodically (see param.39"]; P 39 "ALARM FLASHING alarm time" 2 [V 0 65535 ""]].
Definition dpar273 : list gparam := [P 1 "Enable/Disable ALL ON/OFF" 1 [V (-1) (-1) "ALL ON active / ALL OFF active"; V 0 0 "ALL ON disabled / ALL OFF disabled"; V 1 1 "ALL ON disabled / ALL OFF active"; V 2 2 "ALL ON active / ALL OFF disabled"]; P 3 "Enable/Disable OFF-delay" 1 [V 0 0 "Auto OFF disabled for both relays"; V 1 1 "Auto OFF active only for relay 1"]; P 4 "Relay 1: OFF-delay time (10ms steps)" 1 [V 0 255 ""]; P 6 "Separation of association sending (key 1)" 1 [V 0 0 "Map status to all devices in group 1"; V 1 1 "Map OFF status to all devices in group 1, Double click on key 1 will s"; V 2 2 "Map OFF status to all devices in group 1, Double click on key 1 will s"]; P 13 "Inputs behaviour" 1 [V 0 0 "Toggle"; V 1 1 "Follow switch contact (closed=ON, open=OFF)"]; P 14 "Inputs Button/Switch configuration" 1 [V 0 0 "Mono-stable input (button)"; V 1 1 "Bi-stable input (switch)"]; P 15 "Dimmer/Roller shutter control" 1 [V 0 0 "Disable Dimmer/Roller shutter control"; V 1 1 "Enable Dimmer/Roller shutter control"]; P 16 "Saving state before power failure" 1 [V 0 0 "State NOT saved at power failure, all outputs are set to OFF upon powe"; V 1 1 "State saved at power failure, all outputs are set to previous state up"]; P 30 "Relay 1: Response to General Alarm" 1 [V 0 0 "DEACTIVATION - no response to alarm frames"; V 1 1 "ALARM RELAY ON - relay will turn ON upon receipt of alarm frame"; V 2 2 "ALARM RELAY OFF - relay will turn OFF upon receipt of alarm frame"; V 3 3 "ALARM FLASHING - relay will turn ON and OFF periodically (see param.39"]; P 31 "Relay 1: Response to Water Flood Alarm" 1 [V 0 0 "DEACTIVATION - no response to alarm frames"; V 1 1 "ALARM RELAY ON - relay will turn ON upon receipt of alarm frame"; V 2 2 "ALARM RELAY OFF - relay will turn OFF upon receipt of alarm frame"; V 3 3 "ALARM FLASHING - relay will turn ON and OFF periodically (see param.39"]; P 32 "Relay 1: Response to Smoke, CO, CO2 Alarm" 1 [V 0 0 "DEACTIVATION - no response to alarm frames"; V 1 1 "ALARM RELAY ON - relay will turn ON upon receipt of alarm frame"; V 2 2 "ALARM RELAY OFF - relay will turn OFF upon receipt of alarm frame"; V 3 3 "ALARM FLASHING - relay will turn ON and OFF periodically (see param.39"]; P 33 "Relay 1: Response to Temperature Alarm" 1 [V 0 0 "DEACTIVATION - no response to alarm frames"; V 1 1 "ALARM RELAY ON - relay will turn ON upon receipt of alarm frame"; V 2 2 "ALARM RELAY OFF - relay will turn OFF upon receipt of alarm frame"; V 3 3 "ALARM FLASHING - relay will turn ON and OFF periodically (see param.39"]; P 39 "ALARM FLASHING alarm time" 2 [V 0 65535 ""]].
Definition dpar274 : list gparam := [P 1 "Enable/Disable ALL ON/OFF" 1 [V (-1) (-1) "ALL ON active / ALL OFF active"; V 0 0 "ALL ON disabled / ALL OFF disabled"; V 1 1 "ALL ON disabled / ALL OFF active"; V 2 2 "ALL ON active / ALL OFF disabled"]; P 3 "Enable/Disable OFF-delay" 1 [V 0 0 "Auto OFF disabled for both relays"; V 1 1 "Auto OFF active only for relay 1"]; P 4 "Relay 1: OFF-delay time (10ms steps)" 1 [V 0 255 ""]; P 6 "Separation of association sending (key 1)" 1 [V 0 0 "Map status to all devices in group 1"; V 1 1 "Map OFF status to all devices in group 1, Double click on key 1 will s"; V 2 2 "Map OFF status to all devices in group 1, Double click on key 1 will s"]; P 13 "Inputs behaviour" 1 [V 0 0 "Toggle"; V 1 1 "Follow switch contact (closed=ON, open=OFF)"]; P 14 "Inputs Button/Switch configuration" 1 [V 0 0 "Mono-stable input (button)"; V 1 1 "Bi-stable input (switch)"]; P 15 "Dimmer/Roller shutter control" 1 [V 0 0 "Disable Dimmer/Roller shutter control"; V 1 1 "Enable Dimmer/Roller shutter control"]; P 16 "Saving state before power failure" 1 [V 0 0 "State NOT saved at power failure, all outputs are set to OFF upon powe"; V 1 1 "State saved at power failure, all outputs are set to previous state up"]; P 30 "Relay 1: Response to General Alarm" 1 [V 0 0 "DEACTIVATION - no response to alarm frames"; V 1 1 "ALARM RELAY ON - relay will turn ON upon receipt of alarm frame"; V 2 2 "ALARM RELAY OFF - relay will turn OFF upon receipt of alarm frame"; V 3 3 "ALARM FLASHING - relay will turn ON and OFF periodically (see param.39"]; P 31 "Relay 1: Response to Water Flood Alarm" 1 [V 0 0 "DEACTIVATION - no response to alarm frames"; V 1 1 "ALARM RELAY ON - relay will turn ON upon receipt of alarm frame"; V 2 2 "ALARM RELAY OFF - relay will turn OFF upon receipt of alarm frame"; V 3 3 "ALARM FLASHING - relay will turn ON and OFF periodically (see param.39"]; P 32 "Relay 1: Response to Smoke, CO, CO2 Alarm" 1 [V 0 0 "DEACTIVATION - no response to alarm frames"; V 1 1 "ALARM RELAY ON - relay will turn ON upon receipt of alarm frame"; V 2 2 "ALARM RELAY OFF - relay will turn OFF upon receipt of alarm frame"; V 3 3 "ALARM FLASHING - relay will turn ON and OFF periodically (see param.39"]; P 33 "Relay 1: Response to Temperature Alarm" 1 [V 0 0 "DEACTIVATION - no response to alarm frames"; V 1 1 "ALARM RELAY ON - relay will turn ON upon receipt of alarm frame"; V 2 2 "ALARM RELAY OFF - relay will turn OFF upon receipt of alarm frame"; V 3 3 "ALARM FLASHING - relay will turn ON and OFF periodically (see param.39"]; P 39 "ALARM FLASHING alarm time" 2 [V 0 65535 ""]].
Definition dpar275 : list gparam := [P 1 "Enable/Disable ALL ON/OFF" 1 [V (-1) (-1) "ALL ON active / ALL OFF active"; V 0 0 "ALL ON disabled / ALL OFF disabled"; V 1 1 "ALL ON disabled / ALL OFF active"; V 2 2 "ALL ON active / ALL OFF disabled"]; P 3 "Enable/Disable OFF-delay" 1 [V 0 0 "Auto OFF disabled for both relays"; V 1 1 "Auto OFF active only for relay 1"]; P 4 "Relay 1: OFF-delay time (10ms steps)" 1 [V 0 255 ""]; P 6 "Separation of association sending (key 1)" 1 [V 0 0 "Map status to all devices in group 1"; V 1 1 "Map OFF status to all devices in group 1, Double click on key 1 will s"; V 2 2 "Map OFF status to all devices in group 1, Double click on key 1 will s"]; P 13 "Inputs behaviour" 1 [V 0 0 "Toggle"; V 1 1 "Follow switch contact (closed=ON, open=OFF)"]; P 14 "Inputs Button/Switch configuration" 1 [V 0 0 "Mono-stable input (button)"; V 1 1 "Bi-stable input (switch)"]; P 15 "Dimmer/Roller shutter control" 1 [V 0 0 "Disable Dimmer/Roller shutter control"; V 1 1 "Enable Dimmer/Roller shutter control"]; P 16 "Saving state before power failure" 1 [V 0 0 "State NOT saved at power failure, all outputs are set to OFF upon powe"; V 1 1 "State saved at power failure, all outputs are set to previous state up"]; P 30 "Relay 1: Response to General Alarm" 1 [V 0 0 "DEACTIVATION - no response to alarm frames"; V 1 1 "ALARM RELAY ON - relay will turn ON upon receipt of alarm frame"; V 2 2 "ALARM RELAY OFF - relay will turn OFF upon receipt of alarm frame"; V 3 3 "ALARM FLASHING - relay will turn ON and OFF periodically (see param.39"]; P 31 "Relay 1: Response to Water Flood Alarm" 1 [V 0 0 "DEACTIVATION - no response to alarm frames"; V 1 1 "ALARM RELAY ON - relay will turn ON upon receipt of alarm frame"; V 2 2 "ALARM RELAY OFF - relay will turn OFF upon receipt of alarm frame"; V 3 3 "ALARM FLASHING - relay will turn ON and OFF periodically (see param.39"]; P 32 "Relay 1: Response to Smoke, CO, CO2 Alarm" 1 [V 0 0 "DEACTIVATION - no response to alarm frames"; V 1 1 "ALARM RELAY ON - relay will turn ON upon receipt of alarm frame"; V 2 2 "ALARM RELAY OFF - relay will turn OFF upon receipt of alarm frame"; V 3 3 "ALARM FLASHING - relay will turn ON and OFF periodically (see param.39"]; P 33 "Relay 1: Response to Temperature Alarm" 1 [V 0 0 "DEACTIVATION - no response to alarm frames"; V 1 1 "ALARM RELAY ON - relay will turn ON upon receipt of alarm frame"; V 2 2 "ALARM RELAY OFF - relay will turn OFF upon receipt of alarm frame"; V 3 3 "ALARM FLASHING - relay will turn ON and OFF periodically (see param.39"]; P 39 "ALARM FLASHING alarm time" 2 [V 0 65535 ""]].
Definition dpar276 : list gparam := [P 1 "Enable/Disable ALL ON/OFF" 1 [V 0 0 "ALL ON disabled / ALL OFF disabled"; V 1 1 "ALL ON disabled / ALL OFF active"; V 2 2 "ALL ON active / ALL OFF disabled"; V 255 255 "ALL ON active / ALL OFF active"]; P 3 "Override OFF-delay" 1 [V 0 0 "Turn off with push button disabled in auto off interval"; V 1 1 "Turn off with push button enabled in auto off interval"]; P 4 "Relay 1: OFF-delay time (100ms steps)" 2 [V 0 65535 ""]; P 6 "Separation of association sending (key 1)" 1 [V 0 0 "Map status to all devices in group 1"; V 1 1 "Map OFF status to all devices in group 1  ..."; V 2 2 "Map OFF status to all devices in group 1 ..."]; P 13 "Inputs behaviour" 1 [V 0 0 "Toggle"; V 1 1 "Follow switch contact (closed=ON, open=OFF)"]; P 14 "Inputs Button/Switch configuration" 1 [V 0 0 "Mono-stable input (button)"; V 1 1 "Bi-stable input (switch)"]; P 15 "Dimmer/Roller shutter control" 1 [V 0 0 "Disable Dimmer/Roller shutter control"; V 1 1 "Enable Dimmer/Roller shutter control"]; P 16 "Saving state before power failure" 1 [V 0 0 "State NOT saved at power failure, all outputs are set ..."; V 1 1 "State saved at power failure, all outputs are set to ..."]; P 30 "Relay 1: Response to General Alarm" 1 [V 0 0 "DEACTIVATION - no response to alarm frames"; V 1 1 "ALARM RELAY ON - relay will turn ON upon receipt ..."; V 2 2 "ALARM RELAY OFF - relay will turn OFF upon receipt ..."; V 3 3 "ALARM FLASHING - relay will turn ON and OFF ..."]; P 31 "Relay 1: Response to Water Flood Alarm" 1 [V 0 0 "DEACTIVATION - no response to alarm frames"; V 1 1 "ALARM RELAY ON - relay will turn ON upon receipt ..."; V 2 2 "ALARM RELAY OFF - relay will turn OFF upon receipt ..."; V 3 3 "ALARM FLASHING - relay will turn ON and OFF ..."]; P 32 "Relay 1: Response to Smoke, CO, CO2 Alarm" 1 [V 0 0 "DEACTIVATION - no response to alarm frames"; V 1 1 "ALARM RELAY ON - relay will turn ON upon receipt ..."; V 2 2 "ALARM RELAY OFF - relay will turn OFF upon receipt ..."; V 3 3 "ALARM FLASHING - relay will turn ON and OFF ..."]; P 33 "Relay 1: Response to Temperature Alarm" 1 [V 0 0 "DEACTIVATION - no response to alarm frames"; V 1 1 "ALARM RELAY ON - relay will turn ON upon receipt ..."; V 2 2 "ALARM RELAY OFF - relay will turn OFF upon receipt ..."; V 3 3 "ALARM FLASHING - relay will turn ON and OFF ..."]; P 39 "ALARM FLASHING alarm time" 2 [V 0 65535 ""]].
Definition dpar277 : list gparam := [P 1 "Enable/Disable ALL ON/OFF" 1 [V 0 0 "ALL ON disabled / ALL OFF disabled"; V 1 1 "ALL ON disabled / ALL OFF active"; V 2 2 "ALL ON active / ALL OFF disabled"; V 255 255 "ALL ON active / ALL OFF active"]; P 3 "Override OFF-delay" 1 [V 0 0 "Turn off with push button disabled in auto off interval"; V 1 1 "Turn off with push button enabled in auto off interval"]; P 4 "Relay 1: OFF-delay time (100ms steps)" 2 [V 0 65535 ""]; P 6 "Separation of association sending (key 1)" 1 [V 0 0 "Map status to all devices in group 1"; V 1 1 "Map OFF status to all devices in group 1  ..."; V 2 2 "Map OFF status to all devices in group 1 ..."]; P 13 "Inputs behaviour" 1 [V 0 0 "Toggle"; V 1 1 "Follow switch contact (closed=ON, open=OFF)"]; P 14 "Inputs Button/Switch configuration" 1 [V 0 0 "Mono-stable input (button)"; V 1 1 "Bi-stable input (switch)"]; P 15 "Dimmer/Roller shutter control" 1 [V 0 0 "Disable Dimmer/Roller shutter control"; V 1 1 "Enable Dimmer/Roller shutter control"]; P 16 "Saving state before power failure" 1 [V 0 0 "State NOT saved at power failure, all outputs are set ..."; V 1 1 "State saved at power failure, all outputs are set to ..."]; P 30 "Relay 1: Response to General Alarm" 1 [V 0 0 "DEACTIVATION - no response to alarm frames"; V 1 1 "ALARM RELAY ON - relay will turn ON upon receipt ..."; V 2 2 "ALARM RELAY OFF - relay will turn OFF upon receipt ..."; V 3 3 "ALARM FLASHING - relay will turn ON and OFF ..."]; P 31 "Relay 1: Response to Water Flood Alarm" 1 [V 0 0 "DEACTIVATION - no response to alarm frames"; V 1 1 "ALARM RELAY ON - relay will turn ON upon receipt ..."; V 2 2 "ALARM RELAY OFF - relay will turn OFF upon receipt ..."; V 3 3 "ALARM FLASHING - relay will turn ON and OFF ..."]; P 32 "Relay 1: Response to Smoke, CO, CO2 Alarm" 1 [V 0 0 "DEACTIVATION - no response to alarm frames"; V 1 1 "ALARM RELAY ON - relay will turn ON upon receipt ..."; V 2 2 "ALARM RELAY OFF - relay will turn OFF upon receipt ..."; V 3 3 "ALARM FLASHING - relay will turn ON and OFF ..."]; P 33 "Relay 1: Response to Temperature Alarm" 1 [V 0 0 "DEACTIVATION - no response to alarm frames"; V 1 1 "ALARM RELAY ON - relay will turn ON upon receipt ..."; V 2 2 "ALARM RELAY OFF - relay will turn OFF upon receipt ..."; V 3 3 "ALARM FLASHING - relay will turn ON and OFF ..."]; P 39 "ALARM FLASHING alarm time" 2 [V 0 65535 ""]].
Definition dpar278 : list gparam := [P 9 "Restore state after power failure" 1 [V 0 0 "off after power loss"; V 1 1 "restore last state"]; P 10 "First channel operating mode" 1 [V 0 0 "standard operation"; V 1 1 "delay ON"; V 2 2 "delay OFF"; V 3 3 "auto ON"; V 4 4 "auto OFF"; V 5 5 "flashing mode"]; P 11 "1st ch. reaction to switch" 1 [V 0 0 "cancel mode and set target state"; V 1 1 "no reaction to switch - mode runs until it ends"; V 2 2 "reset timer - start counting from the beginning"]; P 12 "time parameter for delay/auto ON/OFF modes" 2 [V 0 32000 ""]; P 13 "1st ch. pulse time for flashing mode" 2 [V 1 32000 ""]; P 20 "Switch type" 1 [V 0 0 "momentary switch"; V 1 1 "toggle switch stable"; V 2 2 "toggle switch"]; P 21 "Flashing mode - reports" 1 [V 0 0 "the device does not send reports"; V 1 1 "the device sends reports"]; P 27 "Associations in Z-Wave network security mode" 1 [V 0 0 "no group sent as secure"; V 1 1 "2nd group sent as secure"; V 2 2 "3rd group sent as secure"; V 4 4 "4th group sent as secure"; V 8 8 "5th group sent as secure"; V 15 15 "all groups sent as secure"]; P 28 "S1 switch - scenes sent" 1 [V 0 0 "no scenes sent"; V 1 1 "Key pressed 1 time"; V 2 2 "Key pressed 2 times"; V 4 4 "Key pressed 3 times"; V 8 8 "Key Hold Down and Key Released"]; P 29 "S2 switch - scenes sent" 1 [V 0 0 "no scenes sent"; V 1 1 "Key pressed 1 time"; V 2 2 "Key pressed 2 times"; V 4 4 "Key pressed 3 times"; V 8 8 "Key Hold Down and Key Released"]; P 30 "S1 assocs. sent to 2nd and 3rd group" 1 [V 0 0 "All actions are active by default"; V 1 1 "ignore turning ON with 1 click of the switch"; V 2 2 "ignore turning OFF with 1 click of the switch"; V 4 4 "ignore holding and releasing the switch"; V 8 8 "ignore double click of the switch"]; P 31 "S1 ON val sent to 2nd and 3rd groups" 2 [V 0 255 ""]; P 32 "S1 OFF val sent to 2nd and 3rd groups" 2 [V 0 255 ""]; P 33 "S1 DblClick val sent to 2nd and 3rd groups" 2 [V 0 255 ""]; P 35 "S2 assocs. sent to 4th and 5th group" 1 [V 0 0 "All actions are active by default"; V 1 1 "ignore turning on with 1 click of the switch"; V 2 2 "ignore turning off with 1 click of the switch"; V 4 4 "ignore holding and releasing the switch"; V 8 8 "ignore double click of the switch"]; P 50 "Active power reports" 1 [V 0 100 ""]; P 51 "Minimal time between power report" 1 [V 0 120 ""]; P 53 "Energy reports" 2 [V 0 32000 ""]; P 58 "Periodic power reports" 2 [V 0 32000 ""]; P 59 "Periodic energy reports" 2 [V 0 32000 ""]; P 60 "Measuring energy consumed by the device itself" 1 [V 0 0 "Self-measurement inactive"; V 1 1 "Self-measurement active"]].
Definition dpar279 : list gparam := [P 9 "Restore state after power failure" 1 [V 0 0 "off after power loss"; V 1 1 "restore last state"]; P 10 "First channel operating mode" 1 [V 0 0 "standard operation"; V 1 1 "delay ON"; V 2 2 "delay OFF"; V 3 3 "auto ON"; V 4 4 "auto OFF"; V 5 5 "flashing mode"]; P 11 "1st ch. reaction to switch" 1 [V 0 0 "cancel mode and set target state"; V 1 1 "no reaction to switch - mode runs until it ends"; V 2 2 "reset timer - start counting from the beginning"]; P 12 "time parameter for delay/auto ON/OFF modes" 2 [V 0 32000 ""]; P 13 "1st ch. pulse time for flashing mode" 2 [V 1 32000 ""]; P 20 "Switch type" 1 [V 0 0 "momentary switch"; V 1 1 "toggle switch stable"; V 2 2 "toggle switch"]; P 21 "Flashing mode - reports" 1 [V 0 0 "the device does not send reports"; V 1 1 "the device sends reports"]; P 27 "Associations in Z-Wave network security mode" 1 [V 0 0 "no group sent as secure"; V 1 1 "2nd group sent as secure"; V 2 2 "3rd group sent as secure"; V 4 4 "4th group sent as secure"; V 8 8 "5th group sent as secure"; V 15 15 "all groups sent as secure"]; P 28 "S1 switch - scenes sent" 1 [V 0 0 "no scenes sent"; V 1 1 "Key pressed 1 time"; V 2 2 "Key pressed 2 times"; V 4 4 "Key pressed 3 times"; V 8 8 "Key Hold Down and Key Released"]; P 29 "S2 switch - scenes sent" 1 [V 0 0 "no scenes sent"; V 1 1 "Key pressed 1 time"; V 2 2 "Key pressed 2 times"; V 4 4 "Key pressed 3 times"; V 8 8 "Key Hold Down and Key Released"]; P 30 "S1 assocs. sent to 2nd and 3rd group" 1 [V 0 0 "All actions are active by default"; V 1 1 "ignore turning ON with 1 click of the switch"; V 2 2 "ignore turning OFF with 1 click of the switch"; V 4 4 "ignore holding and releasing the switch"; V 8 8 "ignore double click of the switch"]; P 31 "S1 ON val sent to 2nd and 3rd groups" 2 [V 0 255 ""]; P 32 "S1 OFF val sent to 2nd and 3rd groups" 2 [V 0 255 ""]; P 33 "S1 DblClick val sent to 2nd and 3rd groups" 2 [V 0 255 ""]; P 35 "S2 assocs. sent to 4th and 5th group" 1 [V 0 0 "All actions are active by default"; V 1 1 "ignore turning on with 1 click of the switch"; V 2 2 "ignore turning off with 1 click of the switch"; V 4 4 "ignore holding and releasing the switch"; V 8 8 "ignore double click of the switch"]; P 50 "Active power reports" 1 [V 0 100 ""]; P 51 "Minimal time between power report" 1 [V 0 120 ""]; P 53 "Energy reports" 2 [V 0 32000 ""]; P 58 "Periodic power reports" 2 [V 0 32000 ""]; P 59 "Periodic energy reports" 2 [V 0 32000 ""]; P 60 "Measuring energy consumed by the device itself" 1 [V 0 0 "Self-measurement inactive"; V 1 1 "Self-measurement active"]].
Definition dpar280 : list gparam := [P 1 "Enable/Disable ALL ON/OFF" 1 [V 0 0 "ALL ON disabled/ ALL OFF disabled"; V 1 1 "ALL ON disabled/ ALL OFF active"; V 2 2 "ALL ON active / ALL OFF disabled"; V 255 255 "ALL ON active / ALL OFF active"]; P 3 "Enable/Disable OFF-delay" 1 [V 0 0 "Auto OFF disabled for both relays"; V 1 1 "Auto OFF active only for relay 1"; V 2 2 "Auto OFF active only for relay 2"; V 3 3 "Auto OFF active for both relays"]; P 4 "Relay 1: OFF-delay time (10ms steps)" 1 [V 0 255 ""]; P 5 "Relay 2: OFF-delay time (10ms steps)" 1 [V 0 255 ""]; P 6 "Separation of association sending (key 1)" 1 [V 0 0 "Map status to all devices in group 1"; V 1 1 "Map OFF status to all devices in group 1, double click on key 1 will s"; V 2 2 "Map OFF status to all devices in group 1, double click on key 1 will s"]; P 7 "Separation of association sending (key 2)" 1 [V 0 0 "Map status to all devices in group 2"; V 1 1 "Map OFF status to all devices in group 2, double click on key 2 will s"; V 2 2 "Map OFF status to all devices in group 2, double click on key 2 will s"]; P 13 "Inputs behaviour" 1 [V 0 0 "Toggle"; V 1 1 "Follow switch contact (closed=ON, open=OFF)"]; P 14 "Inputs Button/Switch configuration" 1 [V 0 0 "Mono-stable input (button)"; V 1 1 "Bi-stable input (switch)"]; P 15 "Dimmer/Roller shutter control" 1 [V 0 0 "Disable Dimmer/Roller shutter control"; V 1 1 "Enable Dimmer/Roller shutter control"]; P 16 "Saving state before power failure" 1 [V 0 0 "State NOT saved at power failure, all outputs are set to OFF upon powe"; V 1 1 "State saved at power failure, all outputs are set to previous state up"]; P 30 "Relay 1: Response to General Alarm" 1 [V 0 0 "DEACTIVATION - no response to alarm frames"; V 1 1 "ALARM RELAY ON - relay will turn ON upon receipt of alarm frame"; V 2 2 "ALARM RELAY OFF - relay will turn OFF upon receipt of alarm frame"; V 3 3 "ALARM FLASHING - relay will turn ON and OFF periodically (see param.39"]; P 31 "Relay 1: Response to Water Flood Alarm" 1 [V 0 0 "DEACTIVATION - no response to alarm frames"; V 1 1 "ALARM RELAY ON - relay will turn ON upon receipt of alarm frame"; V 2 2 "ALARM RELAY OFF - relay will turn OFF upon receipt of alarm frame"; V 3 3 "ALARM FLASHING - relay will turn ON and OFF periodically (see param.39"]; P 32 "Relay 1: Response to Smoke, CO, CO2 Alarm" 1 [V 0 0 "DEACTIVATION - no response to alarm frames"; V 1 1 "ALARM RELAY ON - relay will turn ON upon receipt of alarm frame"; V 2 2 "ALARM RELAY OFF - relay will turn OFF upon receipt of alarm frame"; V 3 3 "ALARM FLASHING - relay will turn ON and OFF periodically (see param.39"]; P 33 "Relay 1: Response to Temperature Alarm" 1 [V 0 0 "DEACTIVATION - no response to alarm frames"; V 1 1 "ALARM RELAY ON - relay will turn ON upon receipt of alarm frame"; V 2 2 "ALARM RELAY OFF - relay will turn OFF upon receipt of alarm frame"; V 3 3 "ALARM FLASHING - relay will turn ON and OFF periodically (see param.39"]; P 39 "ALARM FLASHING alarm time" 2 [V 0 65535 ""]; P 40 "Relay 2: Response to General Alarm" 1 [V 0 0 "DEACTIVATION - no response to alarm frames"; V 1 1 "ALARM RELAY ON - relay will turn ON upon receipt of alarm frame"; V 2 2 "ALARM RELAY OFF - relay will turn OFF upon receipt of alarm frame"; V 3 3 "ALARM FLASHING - relay will turn ON and OFF periodically (see param.39"]; P 41 "Relay 2: Response to Water Flood Alarm" 1 [V 0 0 "DEACTIVATION - no response to alarm frames"; V 1 1 "ALARM RELAY ON - relay will turn ON upon receipt of alarm frame"; V 2 2 "ALARM RELAY OFF - relay will turn OFF upon receipt of alarm frame"; V 3 3 "ALARM FLASHING - relay will turn ON and OFF periodically (see param.39"]; P 42 "Relay 2: Response to Smoke, CO, CO2 Alarm" 1 [V 0 0 "Deactivated"; V 1 1 "Alarm Relay On"; V 2 2 "Alarm Relay Off"; V 3 3 "Alarm Flashing"]; P 43 "Relay 2: Response to Temperature Alarm" 1 [V 0 0 "DEACTIVATION - no response to alarm frames"; V 1 1 "ALARM RELAY ON - relay will turn ON upon receipt of alarm frame"; V 2 2 "ALARM RELAY OFF - relay will turn OFF upon receipt of alarm frame"; V 3 3 "ALARM FLASHING - relay will turn ON and OFF periodically (see param.39"]].
Definition dpar281 : list gparam := [P 1 "Enable/Disable ALL ON/OFF" 1 [V 0 0 "ALL ON disabled/ ALL OFF disabled"; V 1 1 "ALL ON disabled/ ALL OFF active"; V 2 2 "ALL ON active / ALL OFF disabled"; V 255 255 "ALL ON active / ALL OFF active"]; P 3 "Enable/Disable OFF-delay" 1 [V 0 0 "Auto OFF disabled for both relays"; V 1 1 "Auto OFF active only for relay 1"; V 2 2 "Auto OFF active only for relay 2"; V 3 3 "Auto OFF active for both relays"]; P 4 "Relay 1: OFF-delay time (10ms steps)" 1 [V 0 255 ""]; P 5 "Relay 2: OFF-delay time (10ms steps)" 1 [V 0 255 ""]; P 6 "Separation of association sending (key 1)" 1 [V 0 0 "Map status to all devices in group 1"; V 1 1 "Map OFF status to all devices in group 1, double click on key 1 will s"; V 2 2 "Map OFF status to all devices in group 1, double click on key 1 will s"]; P 7 "Separation of association sending (key 2)" 1 [V 0 0 "Map status to all devices in group 2"; V 1 1 "Map OFF status to all devices in group 2, double click on key 2 will s"; V 2 2 "Map OFF status to all devices in group 2, double click on key 2 will s"]; P 13 "Inputs behaviour" 1 [V 0 0 "Toggle"; V 1 1 "Follow switch contact (closed=ON, open=OFF)"]; P 14 "Inputs Button/Switch configuration" 1 [V 0 0 "Mono-stable input (button)"; V 1 1 "Bi-stable input (switch)"]; P 15 "Dimmer/Roller shutter control" 1 [V 0 0 "Disable Dimmer/Roller shutter control"; V 1 1 "Enable Dimmer/Roller shutter control"]; P 16 "Saving state before power failure" 1 [V 0 0 "State NOT saved at power failure, all outputs are set to OFF upon powe"; V 1 1 "State saved at power failure, all outputs are set to previous state up"]; P 30 "Relay 1: Response to General Alarm" 1 [V 0 0 "DEACTIVATION - no response to alarm frames"; V 1 1 "ALARM RELAY ON - relay will turn ON upon receipt of alarm frame"; V 2 2 "ALARM RELAY OFF - relay will turn OFF upon receipt of alarm frame"; V 3 3 "ALARM FLASHING - relay will turn ON and OFF periodically (see param.39"]; P 31 "Relay 1: Response to Water Flood Alarm" 1 [V 0 0 "DEACTIVATION - no response to alarm frames"; V 1 1 "ALARM RELAY ON - relay will turn ON upon receipt of alarm frame"; V 2 2 "ALARM RELAY OFF - relay will turn OFF upon receipt of alarm frame"; V 3 3 "ALARM FLASHING - relay will turn ON and OFF periodically (see param.39"]; P 32 "Relay 1: Response to Smoke, CO, CO2 Alarm" 1 [V 0 0 "DEACTIVATION - no response to alarm frames"; V 1 1 "ALARM RELAY ON - relay will turn ON upon receipt of alarm frame"; V 2 2 "ALARM RELAY OFF - relay will turn OFF upon receipt of alarm frame"; V 3 3 "ALARM FLASHING - relay will turn ON and OFF periodically (see param.39"]; P 33 "Relay 1: Response to Temperature Alarm" 1 [V 0 0 "DEACTIVATION - no response to alarm frames"; V 1 1 "ALARM RELAY ON - relay will turn ON upon receipt of alarm frame"; V 2 2 "ALARM RELAY OFF - relay will turn OFF upon receipt of alarm frame"; V 3 3 "ALARM FLASHING - relay will turn ON and OFF periodically (see param.39"]; P 39 "ALARM FLASHING alarm time" 2 [V 0 65535 ""]; P 40 "Relay 2: Response to General Alarm" 1 [V 0 0 "DEACTIVATION - no response to alarm frames"; V 1 1 "ALARM RELAY ON - relay will turn ON upon receipt of alarm frame"; V 2 2 "ALARM RELAY OFF - relay will turn OFF upon receipt of alarm frame"; V 3 3 "ALARM FLASHING - relay will turn ON and OFF periodically (see param.39"]; P 41 "Relay 2: Response to Water Flood Alarm" 1 [V 0 0 "DEACTIVATION - no response to alarm frames"; V 1 1 "ALARM RELAY ON - relay will turn ON upon receipt of alarm frame"; V 2 2 "ALARM RELAY OFF - relay will turn OFF upon receipt of alarm frame"; V 3 3 "ALARM FLASHING - relay will turn ON and OFF periodically (see param.39"]; P 42 "Relay 2: Response to Smoke, CO, CO2 Alarm" 1 [V 0 0 "Deactivated"; V 1 1 "Alarm Relay On"; V 2 2 "Alarm Relay Off"; V 3 3 "Alarm Flashing"]; P 43 "Relay 2: Response to Temperature Alarm" 1 [V 0 0 "DEACTIVATION - no response to alarm frames"; V 1 1 "ALARM RELAY ON - relay will turn ON upon receipt of alarm frame"; V 2 2 "ALARM RELAY OFF - relay will turn OFF upon receipt of alarm frame"; V 3 3 "ALARM FLASHING - relay will turn ON and OFF periodically (see param.39"]].
Definition dpar282 : list gparam := [P 1 "Enable/Disable ALL ON/OFF" 1 [V 0 0 "ALL ON disabled/ ALL OFF disabled"; V 1 1 "ALL ON disabled/ ALL OFF active"; V 2 2 "ALL ON active / ALL OFF disabled"; V 255 255 "ALL ON active / ALL OFF active"]; P 3 "Enable/Disable OFF-delay" 1 [V 0 0 "Auto OFF disabled for both relays"; V 1 1 "Auto OFF active only for relay 1"; V 2 2 "Auto OFF active only for relay 2"; V 3 3 "Auto OFF active for both relays"]; P 4 "Relay 1: OFF-delay time (10ms steps)" 1 [V 0 255 ""]; P 5 "Relay 2: OFF-delay time (10ms steps)" 1 [V 0 255 ""]; P 6 "Separation of association sending (key 1)" 1 [V 0 0 "Map status to all devices in group 1"; V 1 1 "Map OFF status to all devices in group 1, double click on key 1 will s"; V 2 2 "Map OFF status to all devices in group 1, double click on key 1 will s"]; P 7 "Separation of association sending (key 2)" 1 [V 0 0 "Map status to all devices in group 2"; V 1 1 "Map OFF status to all devices in group 2, double click on key 2 will s"; V 2 2 "Map OFF status to all devices in group 2, double click on key 2 will s"]; P 13 "Inputs behaviour" 1 [V 0 0 "Toggle"; V 1 1 "Follow switch contact (closed=ON, open=OFF)"]; P 14 "Inputs Button/Switch configuration" 1 [V 0 0 "Mono-stable input (button)"; V 1 1 "Bi-stable input (switch)"]; P 15 "Dimmer/Roller shutter control" 1 [V 0 0 "Disable Dimmer/Roller shutter control"; V 1 1 "Enable Dimmer/Roller shutter control"]; P 16 "Saving state before power failure" 1 [V 0 0 "State NOT saved at power failure, all outputs are set to OFF upon powe"; V 1 1 "State saved at power failure, all outputs are set to previous state up"]; P 30 "Relay 1: Response to General Alarm" 1 [V 0 0 "DEACTIVATION - no response to alarm frames"; V 1 1 "ALARM RELAY ON - relay will turn ON upon receipt of alarm frame"; V 2 2 "ALARM RELAY OFF - relay will turn OFF upon receipt of alarm frame"; V 3 3 "ALARM FLASHING - relay will turn ON and OFF periodically (see param.39"]; P 31 "Relay 1: Response to Water Flood Alarm" 1 [V 0 0 "DEACTIVATION - no response to alarm frames"; V 1 1 "ALARM RELAY ON - relay will turn ON upon receipt of alarm frame"; V 2 2 "ALARM RELAY OFF - relay will turn OFF upon receipt of alarm frame"; V 3 3 "ALARM FLASHING - relay will turn ON and OFF periodically (see param.39"]; P 32 "Relay 1: Response to Smoke, CO, CO2 Alarm" 1 [V 0 0 "DEACTIVATION - no response to alarm frames"; V 1 1 "ALARM RELAY ON - relay will turn ON upon receipt of alarm frame"; V 2 2 "ALARM RELAY OFF - relay will turn OFF upon receipt of alarm frame"; V 3 3 "ALARM FLASHING - relay will turn ON and OFF periodically (see param.39"]; P 33 "Relay 1: Response to Temperature Alarm" 1 [V 0 0 "DEACTIVATION - no response to alarm frames"; V 1 1 "ALARM RELAY ON - relay will turn ON upon receipt of alarm frame"; V 2 2 "ALARM RELAY OFF - relay will turn OFF upon receipt of alarm frame"; V 3 3 "ALARM FLASHING - relay will turn ON and OFF periodically (see param.39"]; P 39 "ALARM FLASHING alarm time" 2 [V 0 65535 ""]; P 40 "Relay 2: Response to General Alarm" 1 [V 0 0 "DEACTIVATION - no response to alarm frames"; V 1 1 "ALARM RELAY ON - relay will turn ON upon receipt of alarm frame"; V 2 2 "ALARM RELAY OFF - relay will turn OFF upon receipt of alarm frame"; V 3 3 "ALARM FLASHING - relay will turn ON and OFF periodically (see param.39"]; P 41 "Relay 2: Response to Water Flood Alarm" 1 [V 0 0 "DEACTIVATION - no response to alarm frames"; V 1 1 "ALARM RELAY ON - relay will turn ON upon receipt of alarm frame"; V 2 2 "ALARM RELAY OFF - relay will turn OFF upon receipt of alarm frame"; V 3 3 "ALARM FLASHING - relay will turn ON and OFF periodically (see param.39"]; P 42 "Relay 2: Response to Smoke, CO, CO2 Alarm" 1 [V 0 0 "Deactivated"; V 1 1 "Alarm Relay On"; V 2 2 "Alarm Relay Off"; V 3 3 "Alarm Flashing"]; P 43 "Relay 2: Response to Temperature Alarm" 1 [V 0 0 "DEACTIVATION - no response to alarm frames"; V 1 1 "ALARM RELAY ON - relay will turn ON upon receipt of alarm frame"; V 2 2 "ALARM RELAY OFF - relay will turn OFF upon receipt of alarm frame"; V 3 3 "ALARM FLASHING - relay will turn ON and OFF periodically (see param.39"]].
Definition dpar283 : list gparam := [P 1 "Enable/Disable ALL ON/OFF" 1 [V 0 0 "ALL ON disabled/ ALL OFF disabled"; V 1 1 "ALL ON disabled/ ALL OFF active"; V 2 2 "ALL ON active / ALL OFF disabled"; V 255 255 "ALL ON active / ALL OFF active"]; P 3 "Enable/Disable OFF-delay" 1 [V 0 0 "Auto OFF disabled for both relays"; V 1 1 "Auto OFF active only for relay 1"; V 2 2 "Auto OFF active only for relay 2"; V 3 3 "Auto OFF active for both relays"]; P 4 "Relay 1: OFF-delay time (10ms steps)" 1 [V 0 255 ""]; P 5 "Relay 2: OFF-delay time (10ms steps)" 1 [V 0 255 ""]; P 6 "Separation of association sending (key 1)" 1 [V 0 0 "Map status to all devices in group 1"; V 1 1 "Map OFF status to all devices in group 1, double click on key 1 will s"; V 2 2 "Map OFF status to all devices in group 1, double click on key 1 will s"]; P 7 "Separation of association sending (key 2)" 1 [V 0 0 "Map status to all devices in group 2"; V 1 1 "Map OFF status to all devices in group 2, double click on key 2 will s"; V 2 2 "Map OFF status to all devices in group 2, double click on key 2 will s"]; P 13 "Inputs behaviour" 1 [V 0 0 "Toggle"; V 1 1 "Follow switch contact (closed=ON, open=OFF)"]; P 14 "Inputs Button/Switch configuration" 1 [V 0 0 "Mono-stable input (button)"; V 1 1 "Bi-stable input (switch)"]; P 15 "Dimmer/Roller shutter control" 1 [V 0 0 "Disable Dimmer/Roller shutter control"; V 1 1 "Enable Dimmer/Roller shutter control"]; P 16 "Saving state before power failure" 1 [V 0 0 "State NOT saved at power failure, all outputs are set to OFF upon powe"; V 1 1 "State saved at power failure, all outputs are set to previous state up"]; P 30 "Relay 1: Response to General Alarm" 1 [V 0 0 "DEACTIVATION - no response to alarm frames"; V 1 1 "ALARM RELAY ON - relay will turn ON upon receipt of alarm frame"; V 2 2 "ALARM RELAY OFF - relay will turn OFF upon receipt of alarm frame"; V 3 3 "ALARM FLASHING - relay will turn ON and OFF periodically (see param.39"]; P 31 "Relay 1: Response to Water Flood Alarm" 1 [V 0 0 "DEACTIVATION - no response to alarm frames"; V 1 1 "ALARM RELAY ON - relay will turn ON upon receipt of alarm frame"; V 2 2 "ALARM RELAY OFF - relay will turn OFF upon receipt of alarm frame"; V 3 3 "ALARM FLASHING - relay will turn ON and OFF periodically (see param.39"]; P 32 "Relay 1: Response to Smoke, CO, CO2 Alarm" 1 [V 0 0 "DEACTIVATION - no response to alarm frames"; V 1 1 "ALARM RELAY ON - relay will turn ON upon receipt of alarm frame"; V 2 2 "ALARM RELAY OFF - relay will turn OFF upon receipt of alarm frame"; V 3 3 "ALARM FLASHING - relay will turn ON and OFF periodically (see param.39"]; P 33 "Relay 1: Response to Temperature Alarm" 1 [V 0 0 "DEACTIVATION - no response to alarm frames"; V 1 1 "ALARM RELAY ON - relay will turn ON upon receipt of alarm frame"; V 2 2 "ALARM RELAY OFF - relay will turn OFF upon receipt of alarm frame"; V 3 3 "ALARM FLASHING - relay will turn ON and OFF periodically (see param.39"]; P 39 "ALARM FLASHING alarm time" 2 [V 0 65535 ""]; P 40 "Relay 2: Response to General Alarm" 1 [V 0 0 "DEACTIVATION - no response to alarm frames"; V 1 1 "ALARM RELAY ON - relay will turn ON upon receipt of alarm frame"; V 2 2 "ALARM RELAY OFF - relay will turn OFF upon receipt of alarm frame"; V 3 3 "ALARM FLASHING - relay will turn ON and OFF periodically (see param.39"]; P 41 "Relay 2: Response to Water Flood Alarm" 1 [V 0 0 "DEACTIVATION - no response to alarm frames"; V 1 1 "ALARM RELAY ON - relay will turn ON upon receipt of alarm frame"; V 2 2 "ALARM RELAY OFF - relay will turn OFF upon receipt of alarm frame"; V 3 3 "ALARM FLASHING - relay will turn ON and OFF periodically (see param.39"]; P 42 "Relay 2: Response to Smoke, CO, CO2 Alarm" 1 [V 0 0 "Deactivated"; V 1 1 "Alarm Relay On"; V 2 2 "Alarm Relay Off"; V 3 3 "Alarm Flashing"]; P 43 "Relay 2: Response to Temperature Alarm" 1 [V 0 0 "DEACTIVATION - no response to alarm frames"; V 1 1 "ALARM RELAY ON - relay will turn ON upon receipt of alarm frame"; V 2 2 "ALARM RELAY OFF - relay will turn OFF upon receipt of alarm frame"; V 3 3 "ALARM FLASHING - relay will turn ON and OFF periodically (see param.39"]].
Definition dpar284 : list gparam := [P 1 "Enable/Disable ALL ON/OFF" 1 [V 0 0 "ALL ON disabled/ ALL OFF disabled"; V 1 1 "ALL ON disabled/ ALL OFF active"; V 2 2 "ALL ON active / ALL OFF disabled"; V 255 255 "ALL ON active / ALL OFF active"]; P 3 "Enable/Disable OFF-delay" 1 [V 0 0 "Auto OFF disabled for both relays"; V 1 1 "Auto OFF active only for relay 1"; V 2 2 "Auto OFF active only for relay 2"; V 3 3 "Auto OFF active for both relays"]; P 4 "Relay 1: OFF-delay time (10ms steps)" 1 [V 0 255 ""]; P 5 "Relay 2: OFF-delay time (10ms steps)" 1 [V 0 255 ""]; P 6 "Separation of association sending (key 1)" 1 [V 0 0 "Map status to all devices in group 1"; V 1 1 "Map OFF status to all devices in group 1, double click on key 1 will s"; V 2 2 "Map OFF status to all devices in group 1, double click on key 1 will s"]; P 7 "Separation of association sending (key 2)" 1 [V 0 0 "Map status to all devices in group 2"; V 1 1 "Map OFF status to all devices in group 2, double click on key 2 will s"; V 2 2 "Map OFF status to all devices in group 2, double click on key 2 will s"]; P 13 "Inputs behaviour" 1 [V 0 0 "Toggle"; V 1 1 "Follow switch contact (closed=ON, open=OFF)"]; P 14 "Inputs Button/Switch configuration" 1 [V 0 0 "Mono-stable input (button)"; V 1 1 "Bi-stable input (switch)"]; P 15 "Dimmer/Roller shutter control" 1 [V 0 0 "Disable Dimmer/Roller shutter control"; V 1 1 "Enable Dimmer/Roller shutter control"]; P 16 "Saving state before power failure" 1 [V 0 0 "State NOT saved at power failure, all outputs are set to OFF upon powe"; V 1 1 "State saved at power failure, all outputs are set to previous state up"]; P 30 "Relay 1: Response to General Alarm" 1 [V 0 0 "DEACTIVATION - no response to alarm frames"; V 1 1 "ALARM RELAY ON - relay will turn ON upon receipt of alarm frame"; V 2 2 "ALARM RELAY OFF - relay will turn OFF upon receipt of alarm frame"; V 3 3 "ALARM FLASHING - relay will turn ON and OFF periodically (see param.39"]; P 31 "Relay 1: Response to Water Flood Alarm" 1 [V 0 0 "DEACTIVATION - no response to alarm frames"; V 1 1 "ALARM RELAY ON - relay will turn ON upon receipt of alarm frame"; V 2 2 "ALARM RELAY OFF - relay will turn OFF upon receipt of alarm frame"; V 3 3 "ALARM FLASHING - relay will turn ON and OFF periodically (see param.39"]; P 32 "Relay 1: Response to Smoke, CO, CO2 Alarm" 1 [V 0 0 "DEACTIVATION - no response to alarm frames"; V 1 1 "ALARM RELAY ON - relay will turn ON upon receipt of alarm frame"; V 2 2 "ALARM RELAY OFF - relay will turn OFF upon receipt of alarm frame"; V 3 3 "ALARM FLASHING - relay will turn ON and OFF periodically (see param.39"]; P 33 "Relay 1: Response to Temperature Alarm" 1 [V 0 0 "DEACTIVATION - no response to alarm frames"; V 1 1 "ALARM RELAY ON - relay will turn ON upon receipt of alarm frame"; V 2 2 "ALARM RELAY OFF - relay will turn OFF upon receipt of alarm frame"; V 3 3 "ALARM FLASHING - relay will turn ON and OFF periodically (see param.39"]; P 39 "ALARM FLASHING alarm time" 2 [V 0 65535 ""]; P 40 "Relay 2: Response to General Alarm" 1 [V 0 0 "DEACTIVATION - no response to alarm frames"; V 1 1 "ALARM RELAY ON - relay will turn ON upon receipt of alarm frame"; V 2 2 "ALARM RELAY OFF - relay will turn OFF upon receipt of alarm frame"; V 3 3 "ALARM FLASHING - relay will turn ON and OFF periodically (see param.39"]; P 41 "Relay 2: Response to Water Flood Alarm" 1 [V 0 0 "DEACTIVATION - no response to alarm frames"; V 1 1 "ALARM RELAY ON - relay will turn ON upon receipt of alarm frame"; V 2 2 "ALARM RELAY OFF - relay will turn OFF upon receipt of alarm frame"; V 3 3 "ALARM FLASHING - relay will turn ON and OFF periodically (see param.39"]; P 42 "Relay 2: Response to Smoke, CO, CO2 Alarm" 1 [V 0 0 "Deactivated"; V 1 1 "Alarm Relay On"; V 2 2 "Alarm Relay Off"; V 3 3 "Alarm Flashing"]; P 43 "Relay 2: Response to Temperature Alarm" 1 [V 0 0 "DEACTIVATION - no response to alarm frames"; V 1 1 "ALARM RELAY ON - relay will turn ON upon receipt of alarm frame"; V 2 2 "ALARM RELAY OFF - relay will turn OFF upon receipt of alarm frame"; V 3 3 "ALARM FLASHING - relay will turn ON and OFF periodically (see param.39"]].
Definition dpar285 : list gparam := [P 1 "Enable/Disable ALL ON/OFF" 1 [V 0 0 "ALL ON disabled/ ALL OFF disabled"; V 1 1 "ALL ON disabled/ ALL OFF active"; V 2 2 "ALL ON active / ALL OFF disabled"; V 255 255 "ALL ON active / ALL OFF active"]; P 3 "Enable/Disable OFF-delay" 1 [V 0 0 "Auto OFF disabled for both relays"; V 1 1 "Auto OFF active only for relay 1"; V 2 2 "Auto OFF active only for relay 2"; V 3 3 "Auto OFF active for both relays"]; P 4 "Relay 1: OFF-delay time (10ms steps)" 1 [V 0 255 ""]; P 5 "Relay 2: OFF-delay time (10ms steps)" 1 [V 0 255 ""]; P 6 "Separation of association sending (key 1)" 1 [V 0 0 "Map status to all devices in group 1"; V 1 1 "Map OFF status to all devices in group 1, double click on key 1 will s"; V 2 2 "Map OFF status to all devices in group 1, double click on key 1 will s"]; P 7 "Separation of association sending (key 2)" 1 [V 0 0 "Map status to all devices in group 2"; V 1 1 "Map OFF status to all devices in group 2, double click on key 2 will s"; V 2 2 "Map OFF status to all devices in group 2, double click on key 2 will s"]; P 13 "Inputs behaviour" 1 [V 0 0 "Toggle"; V 1 1 "Follow switch contact (closed=ON, open=OFF)"]; P 14 "Inputs Button/Switch configuration" 1 [V 0 0 "Mono-stable input (button)"; V 1 1 "Bi-stable input (switch)"]; P 15 "Dimmer/Roller shutter control" 1 [V 0 0 "Disable Dimmer/Roller shutter control"; V 1 1 "Enable Dimmer/Roller shutter control"]; P 16 "Saving state before power failure" 1 [V 0 0 "State NOT saved at power failure, all outputs are set to OFF upon powe"; V 1 1 "State saved at power failure, all outputs are set to previous state up"]; P 30 "Relay 1: Response to General Alarm" 1 [V 0 0 "DEACTIVATION - no response to alarm frames"; V 1 1 "ALARM RELAY ON - relay will turn ON upon receipt of alarm frame"; V 2 2 "ALARM RELAY OFF - relay will turn OFF upon receipt of alarm frame"; V 3 3 "ALARM FLASHING - relay will turn ON and OFF periodically (see param.39"]; P 31 "Relay 1: Response to Water Flood Alarm" 1 [V 0 0 "DEACTIVATION - no response to alarm frames"; V 1 1 "ALARM RELAY ON - relay will turn ON upon receipt of alarm frame"; V 2 2 "ALARM RELAY OFF - relay will turn OFF upon receipt of alarm frame"; V 3 3 "ALARM FLASHING - relay will turn ON and OFF periodically (see param.39"]; P 32 "Relay 1: Response to Smoke, CO, CO2 Alarm" 1 [V 0 0 "DEACTIVATION - no response to alarm frames"; V 1 1 "ALARM RELAY ON - relay will turn ON upon receipt of alarm frame"; V 2 2 "ALARM RELAY OFF - relay will turn OFF upon receipt of alarm frame"; V 3 3 "ALARM FLASHING - relay will turn ON and OFF periodically (see param.39"]; P 33 "Relay 1: Response to Temperature Alarm" 1 [V 0 0 "DEACTIVATION - no response to alarm frames"; V 1 1 "ALARM RELAY ON - relay will turn ON upon receipt of alarm frame"; V 2 2 "ALARM RELAY OFF - relay will turn OFF upon receipt of alarm frame"; V 3 3 "ALARM FLASHING - relay will turn ON and OFF periodically (see param.39"]; P 39 "ALARM FLASHING alarm time" 2 [V 0 65535 ""]; P 40 "Relay 2: Response to General Alarm" 1 [V 0 0 "DEACTIVATION - no response to alarm frames"; V 1 1 "ALARM RELAY ON - relay will turn ON upon receipt of alarm frame"; V 2 2 "ALARM RELAY OFF - relay will turn OFF upon receipt of alarm frame"; V 3 3 "ALARM FLASHING - relay will turn ON and OFF periodically (see param.39"]; P 41 "Relay 2: Response to Water Flood Alarm" 1 [V 0 0 "DEACTIVATION - no response to alarm frames"; V 1 1 "ALARM RELAY ON - relay will turn ON upon receipt of alarm frame"; V 2 2 "ALARM RELAY OFF - relay will turn OFF upon receipt of alarm frame"; V 3 3 "ALARM FLASHING - relay will turn ON and OFF periodically (see param.39"]; P 42 "Relay 2: Response to Smoke, CO, CO2 Alarm" 1 [V 0 0 "Deactivated"; V 1 1 "Alarm Relay On"; V 2 2 "Alarm Relay Off"; V 3 3 "Alarm Flashing"]; P 43 "Relay 2: Response to Temperature Alarm" 1 [V 0 0 "DEACTIVATION - no response to alarm frames"; V 1 1 "ALARM RELAY ON - relay will turn ON upon receipt of alarm frame"; V 2 2 "ALARM RELAY OFF - relay will turn OFF upon receipt of alarm frame"; V 3 3 "ALARM FLASHING - relay will turn ON and OFF periodically (see param.39"]].
Definition dpar286 : list gparam := [P 1 "Enable/Disable ALL ON/OFF" 1 [V 0 0 "ALL ON disabled/ ALL OFF disabled"; V 1 1 "ALL ON disabled/ ALL OFF active"; V 2 2 "ALL ON active / ALL OFF disabled"; V 255 255 "ALL ON active / ALL OFF active"]; P 3 "Enable/Disable OFF-delay" 1 [V 0 0 "Auto OFF disabled for both relays"; V 1 1 "Auto OFF active only for relay 1"; V 2 2 "Auto OFF active only for relay 2"; V 3 3 "Auto OFF active for both relays"]; P 4 "Relay 1: OFF-delay time (10ms steps)" 1 [V 0 255 ""]; P 5 "Relay 2: OFF-delay time (10ms steps)" 1 [V 0 255 ""]; P 6 "Separation of association sending (key 1)" 1 [V 0 0 "Map status to all devices in group 1"; V 1 1 "Map OFF status to all devices in group 1, double click on key 1 will s"; V 2 2 "Map OFF status to all devices in group 1, double click on key 1 will s"]; P 7 "Separation of association sending (key 2)" 1 [V 0 0 "Map status to all devices in group 2"; V 1 1 "Map OFF status to all devices in group 2, double click on key 2 will s"; V 2 2 "Map OFF status to all devices in group 2, double click on key 2 will s"]; P 13 "Inputs behaviour" 1 [V 0 0 "Toggle"; V 1 1 "Follow switch contact (closed=ON, open=OFF)"]; P 14 "Inputs Button/Switch configuration" 1 [V 0 0 "Mono-stable input (button)"; V 1 1 "Bi-stable input (switch)"]; P 15 "Dimmer/Roller shutter control" 1 [V 0 0 "Disable Dimmer/Roller shutter control"; V 1 1 "Enable Dimmer/Roller shutter control"]; P 16 "Saving state before power failure" 1 [V 0 0 "State NOT saved at power failure, all outputs are set to OFF upon powe"; V 1 1 "State saved at power failure, all outputs are set to previous state up"]; P 30 "Relay 1: Response to General Alarm" 1 [V 0 0 "DEACTIVATION - no response to alarm frames"; V 1 1 "ALARM RELAY ON - relay will turn ON upon receipt of alarm frame"; V 2 2 "ALARM RELAY OFF - relay will turn OFF upon receipt of alarm frame"; V 3 3 "ALARM FLASHING - relay will turn ON and OFF periodically (see param.39"]; P 31 "Relay 1: Response to Water Flood Alarm" 1 [V 0 0 "DEACTIVATION - no response to alarm frames"; V 1 1 "ALARM RELAY ON - relay will turn ON upon receipt of alarm frame"; V 2 2 "ALARM RELAY OFF - relay will turn OFF upon receipt of alarm frame"; V 3 3 "ALARM FLASHING - relay will turn ON and OFF periodically (see param.39"]; P 32 "Relay 1: Response to Smoke, CO, CO2 Alarm" 1 [V 0 0 "DEACTIVATION - no response to alarm frames"; V 1 1 "ALARM RELAY ON - relay will turn ON upon receipt of alarm frame"; V 2 2 "ALARM RELAY OFF - relay will turn OFF upon receipt of alarm frame"; V 3 3 "ALARM FLASHING - relay will turn ON and OFF periodically (see param.39"]; P 33 "Relay 1: Response to Temperature Alarm" 1 [V 0 0 "DEACTIVATION - no response to alarm frames"; V 1 1 "ALARM RELAY ON - relay will turn ON upon receipt of alarm frame"; V 2 2 "ALARM RELAY OFF - relay will turn OFF upon receipt of alarm frame"; V 3 3 "ALARM FLASHING - relay will turn ON and OFF periodically (see param.39"]; P 39 "ALARM FLASHING alarm time" 2 [V 0 65535 ""]; P 40 "Relay 2: Response to General Alarm" 1 [V 0 0 "DEACTIVATION - no response to alarm frames"; V 1 1 "ALARM RELAY ON - relay will turn ON upon receipt of alarm frame"; V 2 2 "ALARM RELAY OFF - relay will turn OFF upon receipt of alarm frame"; V 3 3 "ALARM FLASHING - relay will turn ON and OFF periodically (see param.39"]; P 41 "Relay 2: Response to Water Flood Alarm" 1 [V 0 0 "DEACTIVATION - no response to alarm frames"; V 1 1 "ALARM RELAY ON - relay will turn ON upon receipt of alarm frame"; V 2 2 "ALARM RELAY OFF - relay will turn OFF upon receipt of alarm frame"; V 3 3 "ALARM FLASHING - relay will turn ON and OFF periodically (see param.39"]; P 42 "Relay 2: Response to Smoke, CO, CO2 Alarm" 1 [V 0 0 "Deactivated"; V 1 1 "Alarm Relay On"; V 2 2 "Alarm Relay Off"; V 3 3 "Alarm Flashing"]; P 43 "Relay 2: Response to Temperature Alarm" 1 [V 0 0 "DEACTIVATION - no response to alarm frames"; V 1 1 "ALARM RELAY ON - relay will turn ON upon receipt of alarm frame"; V 2 2 "ALARM RELAY OFF - relay will turn OFF upon receipt of alarm frame"; V 3 3 "ALARM FLASHING - relay will turn ON and OFF periodically (see param.39"]].
Definition dpar287 : list gparam := [P 1 "Enable/Disable ALL ON/OFF" 1 [V 0 0 "ALL ON disabled/ ALL OFF disabled"; V 1 1 "ALL ON disabled/ ALL OFF active"; V 2 2 "ALL ON active / ALL OFF disabled"; V 255 255 "ALL ON active / ALL OFF active"]; P 3 "Enable/Disable OFF-delay" 1 [V 0 0 "Auto OFF disabled for both relays"; V 1 1 "Auto OFF active only for relay 1"; V 2 2 "Auto OFF active only for relay 2"; V 3 3 "Auto OFF active for both relays"]; P 4 "Relay 1: OFF-delay time (10ms steps)" 1 [V 0 255 ""]; P 5 "Relay 2: OFF-delay time (10ms steps)" 1 [V 0 255 ""]; P 6 "Separation of association sending (key 1)" 1 [V 0 0 "Map status to all devices in group 1"; V 1 1 "Map OFF status to all devices in group 1, double click on key 1 will s"; V 2 2 "Map OFF status to all devices in group 1, double click on key 1 will s"]; P 7 "Separation of association sending (key 2)" 1 [V 0 0 "Map status to all devices in group 2"; V 1 1 "Map OFF status to all devices in group 2, double click on key 2 will s"; V 2 2 "Map OFF status to all devices in group 2, double click on key 2 will s"]; P 13 "Inputs behaviour" 1 [V 0 0 "Toggle"; V 1 1 "Follow switch contact (closed=ON, open=OFF)"]; P 14 "Inputs Button/Switch configuration" 1 [V 0 0 "Mono-stable input (button)"; V 1 1 "Bi-stable input (switch)"]; P 15 "Dimmer/Roller shutter control" 1 [V 0 0 "Disable Dimmer/Roller shutter control"; V 1 1 "Enable Dimmer/Roller shutter control"]; P 16 "Saving state before power failure" 1 [V 0 0 "State NOT saved at power failure, all outputs are set to OFF upon powe"; V 1 1 "State saved at power failure, all outputs are set to previous state up"]; P 30 "Relay 1: Response to General Alarm" 1 [V 0 0 "DEACTIVATION - no response to alarm frames"; V 1 1 "ALARM RELAY ON - relay will turn ON upon receipt of alarm frame"; V 2 2 "ALARM RELAY OFF - relay will turn OFF upon receipt of alarm frame"; V 3 3 "ALARM FLASHING - relay will turn ON and OFF periodically (see param.39"]; P 31 "Relay 1: Response to Water Flood Alarm" 1 [V 0 0 "DEACTIVATION - no response to alarm frames"; V 1 1 "ALARM RELAY ON - relay will turn ON upon receipt of alarm frame"; V 2 2 "ALARM RELAY OFF - relay will turn OFF upon receipt of alarm frame"; V 3 3 "ALARM FLASHING - relay will turn ON and OFF periodically (see param.39"]; P 32 "Relay 1: Response to Smoke, CO, CO2 Alarm" 1 [V 0 0 "DEACTIVATION - no response to alarm frames"; V 1 1 "ALARM RELAY ON - relay will turn ON upon receipt of alarm frame"; V 2 2 "ALARM RELAY OFF - relay will turn OFF upon receipt of alarm frame"; V 3 3 "ALARM FLASHING - relay will turn ON and OFF periodically (see param.39"]; P 33 "Relay 1: Response to Temperature Alarm" 1 [V 0 0 "DEACTIVATION - no response to alarm frames"; V 1 1 "ALARM RELAY ON - relay will turn ON upon receipt of alarm frame"; V 2 2 "ALARM RELAY OFF - relay will turn OFF upon receipt of alarm frame"; V 3 3 "ALARM FLASHING - relay will turn ON and OFF periodically (see param.39"]; P 39 "ALARM FLASHING alarm time" 2 [V 0 65535 ""]; P 40 "Relay 2: Response to General Alarm" 1 [V 0 0 "DEACTIVATION - no response to alarm frames"; V 1 1 "ALARM RELAY ON - relay will turn ON upon receipt of alarm frame"; V 2 2 "ALARM RELAY OFF - relay will turn OFF upon receipt of alarm frame"; V 3 3 "ALARM FLASHING - relay will turn ON and OFF periodically (see param.39"]; P 41 "Relay 2: Response to Water Flood Alarm" 1 [V 0 0 "DEACTIVATION - no response to alarm frames"; V 1 1 "ALARM RELAY ON - relay will turn ON upon receipt of alarm frame"; V 2 2 "ALARM RELAY OFF - relay will turn OFF upon receipt of alarm frame"; V 3 3 "ALARM FLASHING - relay will turn ON and OFF periodically (see param.39"]; P 42 "Relay 2: Response to Smoke, CO, CO2 Alarm" 1 [V 0 0 "Deactivated"; V 1 1 "Alarm Relay On"; V 2 2 "Alarm Relay Off"; V 3 3 "Alarm Flashing"]; P 43 "Relay 2: Response to Temperature Alarm" 1 [V 0 0 "DEACTIVATION - no response to alarm frames"; V 1 1 "ALARM RELAY ON - relay will turn ON upon receipt of alarm frame"; V 2 2 "ALARM RELAY OFF - relay will turn OFF upon receipt of alarm frame"; V 3 3 "ALARM FLASHING - relay will turn ON and OFF periodically (see param.39"]].
Definition dpar288 : list gparam := [P 1 "Enable/Disable ALL ON/OFF" 1 [V 0 0 "ALL ON disabled/ ALL OFF disabled"; V 1 1 "ALL ON disabled/ ALL OFF active"; V 2 2 "ALL ON active / ALL OFF disabled"; V 255 255 "ALL ON active / ALL OFF active"]; P 3 "Enable/Disable OFF-delay" 1 [V 0 0 "Auto OFF disabled for both relays"; V 1 1 "Auto OFF active only for relay 1"; V 2 2 "Auto OFF active only for relay 2"; V 3 3 "Auto OFF active for both relays"]; P 4 "Relay 1: OFF-delay time (10ms steps)" 1 [V 0 255 ""]; P 5 "Relay 2: OFF-delay time (10ms steps)" 1 [V 0 255 ""]; P 6 "Separation of association sending (key 1)" 1 [V 0 0 "Map status to all devices in group 1"; V 1 1 "Map OFF status to all devices in group 1, double click on key 1 will s"; V 2 2 "Map OFF status to all devices in group 1, double click on key 1 will s"]; P 7 "Separation of association sending (key 2)" 1 [V 0 0 "Map status to all devices in group 2"; V 1 1 "Map OFF status to all devices in group 2, double click on key 2 will s"; V 2 2 "Map OFF status to all devices in group 2, double click on key 2 will s"]; P 13 "Inputs behaviour" 1 [V 0 0 "Toggle"; V 1 1 "Follow switch contact (closed=ON, open=OFF)"]; P 14 "Inputs Button/Switch configuration" 1 [V 0 0 "Mono-stable input (button)"; V 1 1 "Bi-stable input (switch)"]; P 15 "Dimmer/Roller shutter control" 1 [V 0 0 "Disable Dimmer/Roller shutter control"; V 1 1 "Enable Dimmer/Roller shutter control"]; P 16 "Saving state before power failure" 1 [V 0 0 "State NOT saved at power failure, all outputs are set to OFF upon powe"; V 1 1 "State saved at power failure, all outputs are set to previous state up"]; P 30 "Relay 1: Response to General Alarm" 1 [V 0 0 "DEACTIVATION - no response to alarm frames"; V 1 1 "ALARM RELAY ON - relay will turn ON upon receipt of alarm frame"; V 2 2 "ALARM RELAY OFF - relay will turn OFF upon receipt of alarm frame"; V 3 3 "ALARM FLASHING - relay will turn ON and OFF periodically (see param.39"]; P 31 "Relay 1: Response to Water Flood Alarm" 1 [V 0 0 "DEACTIVATION - no response to alarm frames"; V 1 1 "ALARM RELAY ON - relay will turn ON upon receipt of alarm frame"; V 2 2 "ALARM RELAY OFF - relay will turn OFF upon receipt of alarm frame"; V 3 3 "ALARM FLASHING - relay will turn ON and OFF periodically (see param.39"]; P 32 "Relay 1: Response to Smoke, CO, CO2 Alarm" 1 [V 0 0 "DEACTIVATION - no response to alarm frames"; V 1 1 "ALARM RELAY ON - relay will turn ON upon receipt of alarm frame"; V 2 2 "ALARM RELAY OFF - relay will turn OFF upon receipt of alarm frame"; V 3 3 "ALARM FLASHING - relay will turn ON and OFF periodically (see param.39"]; P 33 "Relay 1: Response to Temperature Alarm" 1 [V 0 0 "DEACTIVATION - no response to alarm frames"; V 1 1 "ALARM RELAY ON - relay will turn ON upon receipt of alarm frame"; V 2 2 "ALARM RELAY OFF - relay will turn OFF upon receipt of alarm frame"; V 3 3 "ALARM FLASHING - relay will turn ON and OFF periodically (see param.39"]; P 39 "ALARM FLASHING alarm time" 2 [V 0 65535 ""]; P 40 "Relay 2: Response to General Alarm" 1 [V 0 0 "DEACTIVATION - no response to alarm frames"; V 1 1 "ALARM RELAY ON - relay will turn ON upon receipt of alarm frame"; V 2 2 "ALARM RELAY OFF - relay will turn OFF upon receipt of alarm frame"; V 3 3 "ALARM FLASHING - relay will turn ON and OFF periodically (see param.39"]; P 41 "Relay 2: Response to Water Flood Alarm" 1 [V 0 0 "DEACTIVATION - no response to alarm frames"; V 1 1 "ALARM RELAY ON - relay will turn ON upon receipt of alarm frame"; V 2 2 "ALARM RELAY OFF - relay will turn OFF upon receipt of alarm frame"; V 3 3 "ALARM FLASHING - relay will turn ON and OFF periodically (see param.39"]; P 42 "Relay 2: Response to Smoke, CO, CO2 Alarm" 1 [V 0 0 "Deactivated"; V 1 1 "Alarm Relay On"; V 2 2 "Alarm Relay Off"; V 3 3 "Alarm Flashing"]; P 43 "Relay 2: Response to Temperature Alarm" 1 [V 0 0 "DEACTIVATION - no response to alarm frames"; V 1 1 "ALARM RELAY ON - relay will turn ON upon receipt of alarm frame"; V 2 2 "ALARM RELAY OFF - relay will turn OFF upon receipt of alarm frame"; V 3 3 "ALARM FLASHING - relay will turn ON and OFF periodically (see param.39"]].
Definition dpar289 : list gparam := [P 1 "Enable/Disable ALL ON/OFF" 1 [V 0 0 "ALL ON disabled/ ALL OFF disabled"; V 1 1 "ALL ON disabled/ ALL OFF active"; V 2 2 "ALL ON active / ALL OFF disabled"; V 255 255 "ALL ON active / ALL OFF active"]; P 3 "Enable/Disable OFF-delay" 1 [V 0 0 "Auto OFF disabled for both relays"; V 1 1 "Auto OFF active only for relay 1"; V 2 2 "Auto OFF active only for relay 2"; V 3 3 "Auto OFF active for both relays"]; P 4 "Relay 1: OFF-delay time (10ms steps)" 1 [V 0 255 ""]; P 5 "Relay 2: OFF-delay time (10ms steps)" 1 [V 0 255 ""]; P 6 "Separation of association sending (key 1)" 1 [V 0 0 "Map status to all devices in group 1"; V 1 1 "Map OFF status to all devices in group 1, double click on key 1 will s"; V 2 2 "Map OFF status to all devices in group 1, double click on key 1 will s"]; P 7 "Separation of association sending (key 2)" 1 [V 0 0 "Map status to all devices in group 2"; V 1 1 "Map OFF status to all devices in group 2, double click on key 2 will s"; V 2 2 "Map OFF status to all devices in group 2, double click on key 2 will s"]; P 13 "Inputs behaviour" 1 [V 0 0 "Toggle"; V 1 1 "Follow switch contact (closed=ON, open=OFF)"]; P 14 "Inputs Button/Switch configuration" 1 [V 0 0 "Mono-stable input (button)"; V 1 1 "Bi-stable input (switch)"]; P 15 "Dimmer/Roller shutter control" 1 [V 0 0 "Disable Dimmer/Roller shutter control"; V 1 1 "Enable Dimmer/Roller shutter control"]; P 16 "Saving state before power failure" 1 [V 0 0 "State NOT saved at power failure, all outputs are set to OFF upon powe"; V 1 1 "State saved at power failure, all outputs are set to previous state up"]; P 30 "Relay 1: Response to General Alarm" 1 [V 0 0 "DEACTIVATION - no response to alarm frames"; V 1 1 "ALARM RELAY ON - relay will turn ON upon receipt of alarm frame"; V 2 2 "ALARM RELAY OFF - relay will turn OFF upon receipt of alarm frame"; V 3 3 "ALARM FLASHING - relay will turn ON and OFF periodically (see param.39"]; P 31 "Relay 1: Response to Water Flood Alarm" 1 [V 0 0 "DEACTIVATION - no response to alarm frames"; V 1 1 "ALARM RELAY ON - relay will turn ON upon receipt of alarm frame"; V 2 2 "ALARM RELAY OFF - relay will turn OFF upon receipt of alarm frame"; V 3 3 "ALARM FLASHING - relay will turn ON and OFF periodically (see param.39"]; P 32 "Relay 1: Response to Smoke, CO, CO2 Alarm" 1 [V 0 0 "DEACTIVATION - no response to alarm frames"; V 1 1 "ALARM RELAY ON - relay will turn ON upon receipt of alarm frame"; V 2 2 "ALARM RELAY OFF - relay will turn OFF upon receipt of alarm frame"; V 3 3 "ALARM FLASHING - relay will turn ON and OFF periodically (see param.39"]; P 33 "Relay 1: Response to Temperature Alarm" 1 [V 0 0 "DEACTIVATION - no response to alarm frames"; V 1 1 "ALARM RELAY ON - relay will turn ON upon receipt of alarm frame"; V 2 2 "ALARM RELAY OFF - relay will turn OFF upon receipt of alarm frame"; V 3 3 "ALARM FLASHING - relay will turn ON and OFF periodically (see param.39"]; P 39 "ALARM FLASHING alarm time" 2 [V 0 65535 ""]; P 40 "Relay 2: Response to General Alarm" 1 [V 0 0 "DEACTIVATION - no response to alarm frames"; V 1 1 "ALARM RELAY ON - relay will turn ON upon receipt of alarm frame"; V 2 2 "ALARM RELAY OFF - relay will turn OFF upon receipt of alarm frame"; V 3 3 "ALARM FLASHING - relay will turn ON and OFF periodically (see param.39"]; P 41 "Relay 2: Response to Water Flood Alarm" 1 [V 0 0 "DEACTIVATION - no response to alarm frames"; V 1 1 "ALARM RELAY ON - relay will turn ON upon receipt of alarm frame"; V 2 2 "ALARM RELAY OFF - relay will turn OFF upon receipt of alarm frame"; V 3 3 "ALARM FLASHING - relay will turn ON and OFF periodically (see param.39"]; P 42 "Relay 2: Response to Smoke, CO, CO2 Alarm" 1 [V 0 0 "Deactivated"; V 1 1 "Alarm Relay On"; V 2 2 "Alarm Relay Off"; V 3 3 "Alarm Flashing"]; P 43 "Relay 2: Response to Temperature Alarm" 1 [V 0 0 "DEACTIVATION - no response to alarm frames"; V 1 1 "ALARM RELAY ON - relay will turn ON upon receipt of alarm frame"; V 2 2 "ALARM RELAY OFF - relay will turn OFF upon receipt of alarm frame"; V 3 3 "ALARM FLASHING - relay will turn ON and OFF periodically (see param.39"]].
Definition dpar290 : list gparam := [P 1 "Enable/Disable ALL ON/OFF" 1 [V (-1) (-1) "ALL ON active / ALL OFF active"; V 0 0 "ALL ON disabled/ ALL OFF disabled"; V 1 1 "ALL ON disabled/ ALL OFF active"; V 2 2 "ALL ON active / ALL OFF disabled"]; P 3 "Override OFF-delay" 1 [V 0 0 "Turn off with push button disabled in auto off interval"; V 1 1 "Turn off with push button enabled in auto off interval"]; P 4 "Relay 1: OFF-delay time (100ms steps)" 2 [V 0 65535 ""]; P 5 "Relay 2: OFF-delay time (100ms steps)" 2 [V 0 65535 ""]; P 6 "Separation of association sending (key 1)" 1 [V 0 0 "Commands are sent when device is turned on and off."; V 1 1 "Commands sent when turned off, double-click sends 'turn on', dimmers a"; V 2 2 "Map OFF status to all devices in group 1, Double click on key 1 will s"]; P 7 "Control key #2 behaviour" 1 [V 0 0 "Commands are sent when device is turned on and off."; V 1 1 "Commands sent when turned off, double-click sends 'turn on', dimmers a"; V 2 2 "Commands are sent when device is turned off, double-click sends 'turn "]; P 13 "Inputs behaviour" 1 [V 0 0 "Toggle"; V 1 1 "Follow switch contact (closed=ON, open=OFF)"]; P 14 "Inputs Button/Switch configuration" 1 [V 0 0 "Mono-stable input (button)"; V 1 1 "Bi-stable input (switch)"]; P 15 "Dimmer/Roller shutter control" 1 [V 0 0 "Disable Dimmer/Roller shutter control"; V 1 1 "Enable Dimmer/Roller shutter control"]; P 16 "Saving state before power failure" 1 [V 0 0 "State NOT saved at power failure, all outputs are set to OFF upon powe"; V 1 1 "State saved at power failure, all outputs are set to previous state up"]; P 30 "Relay 1: Response to General Alarm" 1 [V 0 0 "DEACTIVATION - no response to alarm frames"; V 1 1 "ALARM RELAY ON - relay will turn ON upon receipt of alarm frame"; V 2 2 "ALARM RELAY OFF - relay will turn OFF upon receipt of alarm frame"; V 3 3 "ALARM FLASHING - relay will turn ON and OFF periodically (see param.39"]; P 31 "Relay 1: Response to Water Flood Alarm" 1 [V 0 0 "DEACTIVATION - no response to alarm frames"; V 1 1 "ALARM RELAY ON - relay will turn ON upon receipt of alarm frame"; V 2 2 "ALARM RELAY OFF - relay will turn OFF upon receipt of alarm frame"; V 3 3 "ALARM FLASHING - relay will turn ON and OFF periodically (see param.39"]; P 32 "Relay 1: Response to Smoke, CO, CO2 Alarm" 1 [V 0 0 "DEACTIVATION - no response to alarm frames"; V 1 1 "ALARM RELAY ON - relay will turn ON upon receipt of alarm frame"; V 2 2 "ALARM RELAY OFF - relay will turn OFF upon receipt of alarm frame"; V 3 3 "ALARM FLASHING - relay will turn ON and OFF periodically (see param.39"]; P 33 "Relay 1: Response to Temperature Alarm" 1 [V 0 0 "DEACTIVATION - no response to alarm frames"; V 1 1 "ALARM RELAY ON - relay will turn ON upon receipt of alarm frame"; V 2 2 "ALARM RELAY OFF - relay will turn OFF upon receipt of alarm frame"; V 3 3 "ALARM FLASHING - relay will turn ON and OFF periodically (see param.39"]; P 39 "ALARM FLASHING alarm time" 2 [V 0 65535 ""]; P 40 "Relay 2: Response to General Alarm" 1 [V 0 0 "DEACTIVATION - no response to alarm frames"; V 1 1 "ALARM RELAY ON - relay will turn ON upon receipt of alarm frame"; V 2 2 "ALARM RELAY OFF - relay will turn OFF upon receipt of alarm frame"; V 3 3 "ALARM FLASHING - relay will turn ON and OFF periodically (see param.39"]; P 41 "Relay 2: Response to Water Flood Alarm" 1 [V 0 0 "DEACTIVATION - no response to alarm frames"; V 1 1 "ALARM RELAY ON - relay will turn ON upon receipt of alarm frame"; V 2 2 "ALARM RELAY OFF - relay will turn OFF upon receipt of alarm frame"; V 3 3 "ALARM FLASHING - relay will turn ON and OFF periodically (see param.39"]; P 42 "Relay 2: Response to Smoke, CO, CO2 Alarm" 1 [V 0 0 "DEACTIVATION - no response to alarm frames"; V 1 1 "ALARM RELAY ON - relay will turn ON upon receipt of alarm frame"; V 2 2 "ALARM RELAY OFF - relay will turn OFF upon receipt of alarm frame"; V 3 3 "ALARM FLASHING - relay will turn ON and OFF periodically (see param.39"]; P 43 "Relay 2: Response to Temperature Alarm" 1 [V 0 0 "DEACTIVATION - no response to alarm frames"; V 1 1 "ALARM RELAY ON - relay will turn ON upon receipt of alarm frame"; V 2 2 "ALARM RELAY OFF - relay will turn OFF upon receipt of alarm frame"; V 3 3 "ALARM FLASHING - relay will turn ON and OFF periodically (see param.39"]].
Definition dpar291 : list gparam := [P 1 "Enable/Disable ALL ON/OFF" 1 [V (-1) (-1) "ALL ON active / ALL OFF active"; V 0 0 "ALL ON disabled/ ALL OFF disabled"; V 1 1 "ALL ON disabled/ ALL OFF active"; V 2 2 "ALL ON active / ALL OFF disabled"]; P 3 "Override OFF-delay" 1 [V 0 0 "Turn off with push button disabled in auto off interval"; V 1 1 "Turn off with push button enabled in auto off interval"]; P 4 "Relay 1: OFF-delay time (100ms steps)" 2 [V 0 65535 ""]; P 5 "Relay 2: OFF-delay time (100ms steps)" 2 [V 0 65535 ""]; P 6 "Separation of association sending (key 1)" 1 [V 0 0 "Commands are sent when device is turned on and off."; V 1 1 "Commands sent when turned off, double-click sends 'turn on', dimmers a"; V 2 2 "Map OFF status to all devices in group 1, Double click on key 1 will s"]; P 7 "Control key #2 behaviour" 1 [V 0 0 "Commands are sent when device is turned on and off."; V 1 1 "Commands sent when turned off, double-click sends 'turn on', dimmers a"; V 2 2 "Commands are sent when device is turned off, double-click sends 'turn "]; P 13 "Inputs behaviour" 1 [V 0 0 "Toggle"; V 1 1 "Follow switch contact (closed=ON, open=OFF)"]; P 14 "Inputs Button/Switch configuration" 1 [V 0 0 "Mono-stable input (button)"; V 1 1 "Bi-stable input (switch)"]; P 15 "Dimmer/Roller shutter control" 1 [V 0 0 "Disable Dimmer/Roller shutter control"; V 1 1 "Enable Dimmer/Roller shutter control"]; P 16 "Saving state before power failure" 1 [V 0 0 "State NOT saved at power failure, all outputs are set to OFF upon powe"; V 1 1 "State saved at power failure, all outputs are set to previous state up"]; P 30 "Relay 1: Response to General Alarm" 1 [V 0 0 "DEACTIVATION - no response to alarm frames"; V 1 1 "ALARM RELAY ON - relay will turn ON upon receipt of alarm frame"; V 2 2 "ALARM RELAY OFF - relay will turn OFF upon receipt of alarm frame"; V 3 3 "ALARM FLASHING - relay will turn ON and OFF periodically (see param.39"]; P 31 "Relay 1: Response to Water Flood Alarm" 1 [V 0 0 "DEACTIVATION - no response to alarm frames"; V 1 1 "ALARM RELAY ON - relay will turn ON upon receipt of alarm frame"; V 2 2 "ALARM RELAY OFF - relay will turn OFF upon receipt of alarm frame"; V 3 3 "ALARM FLASHING - relay will turn ON and OFF periodically (see param.39"]; P 32 "Relay 1: Response to Smoke, CO, CO2 Alarm" 1 [V 0 0 "DEACTIVATION - no response to alarm frames"; V 1 1 "ALARM RELAY ON - relay will turn ON upon receipt of alarm frame"; V 2 2 "ALARM RELAY OFF - relay will turn OFF upon receipt of alarm frame"; V 3 3 "ALARM FLASHING - relay will turn ON and OFF periodically (see param.39"]; P 33 "Relay 1: Response to Temperature Alarm" 1 [V 0 0 "DEACTIVATION - no response to alarm frames"; V 1 1 "ALARM RELAY ON - relay will turn ON upon receipt of alarm frame"; V 2 2 "ALARM RELAY OFF - relay will turn OFF upon receipt of alarm frame"; V 3 3 "ALARM FLASHING - relay will turn ON and OFF periodically (see param.39"]; P 39 "ALARM FLASHING alarm time" 2 [V 0 65535 ""]; P 40 "Relay 2: Response to General Alarm" 1 [V 0 0 "DEACTIVATION - no response to alarm frames"; V 1 1 "ALARM RELAY ON - relay will turn ON upon receipt of alarm frame"; V 2 2 "ALARM RELAY OFF - relay will turn OFF upon receipt of alarm frame"; V 3 3 "ALARM FLASHING - relay will turn ON and OFF periodically (see param.39"]; P 41 "Relay 2: Response to Water Flood Alarm" 1 [V 0 0 "DEACTIVATION - no response to alarm frames"; V 1 1 "ALARM RELAY ON - relay will turn ON upon receipt of alarm frame"; V 2 2 "ALARM RELAY OFF - relay will turn OFF upon receipt of alarm frame"; V 3 3 "ALARM FLASHING - relay will turn ON and OFF periodically (see param.39"]; P 42 "Relay 2: Response to Smoke, CO, CO2 Alarm" 1 [V 0 0 "DEACTIVATION - no response to alarm frames"; V 1 1 "ALARM RELAY ON - relay will turn ON upon receipt of alarm frame"; V 2 2 "ALARM RELAY OFF - relay will turn OFF upon receipt of alarm frame"; V 3 3 "ALARM FLASHING - relay will turn ON and OFF periodically (see param.39"]; P 43 "Relay 2: Response to Temperature Alarm" 1 [V 0 0 "DEACTIVATION - no response to alarm frames"; V 1 1 "ALARM RELAY ON - relay will turn ON upon receipt of alarm frame"; V 2 2 "ALARM RELAY OFF - relay will turn OFF upon receipt of alarm frame"; V 3 3 "ALARM FLASHING - relay will turn ON and OFF periodically (see param.39"]].
Definition dpar292 : list gparam := [P 9 "Restore state after power failure" 1 [V 0 0 "off after power loss"; V 1 1 "restore last state"]; P 10 "First channel operating mode" 1 [V 0 0 "standard operation"; V 1 1 "delay ON"; V 2 2 "delay OFF"; V 3 3 "auto ON"; V 4 4 "auto OFF"; V 5 5 "flashing mode"]; P 11 "1st ch. reaction to switch" 1 [V 0 0 "cancel mode and set target state"; V 1 1 "no reaction to switch - mode runs until it ends"; V 2 2 "reset timer - start counting from the beginning"]; P 12 "time parameter for delay/auto ON/OFF modes" 2 [V 0 32000 ""]; P 13 "1st ch. pulse time for flashing mode" 2 [V 1 32000 ""]; P 15 "2nd ch. operating mode" 1 [V 0 0 "standard operation"; V 1 1 "delay ON"; V 2 2 "delay OFF"; V 3 3 "auto ON"; V 4 4 "auto OFF"; V 5 5 "flashing mode"]; P 16 "2nd ch. reaction to switch" 1 [V 0 0 "cancel mode and set target state"; V 1 1 "no reaction to switch - mode runs until it ends"; V 2 2 "reset timer - start counting from the beginning"]; P 17 "2nd ch. time parameter for delay" 2 [V 0 32000 ""]; P 18 "2nd ch. pulse time for flashing mode" 2 [V 1 32000 ""]; P 20 "Switch type" 1 [V 0 0 "momentary switch"; V 1 1 "toggle switch stable"; V 2 2 "toggle switch"]; P 21 "Flashing mode - reports" 1 [V 0 0 "the device does not send reports"; V 1 1 "the device sends reports"]; P 27 "Associations in Z-Wave network security mode" 1 [V 0 0 "no group sent as secure"; V 1 1 "2nd group sent as secure"; V 2 2 "3rd group sent as secure"; V 4 4 "4th group sent as secure"; V 8 8 "5th group sent as secure"; V 15 15 "all groups sent as secure"]; P 28 "S1 switch - scenes sent" 1 [V 0 0 "no scenes sent"; V 1 1 "Key pressed 1 time"; V 2 2 "Key pressed 2 times"; V 4 4 "Key pressed 3 times"; V 8 8 "Key Hold Down and Key Released"]; P 29 "S2 switch - scenes sent" 1 [V 0 0 "no scenes sent"; V 1 1 "Key pressed 1 time"; V 2 2 "Key pressed 2 times"; V 4 4 "Key pressed 3 times"; V 8 8 "Key Hold Down and Key Released"]; P 30 "S1 assocs. sent to 2nd and 3rd group" 1 [V 0 0 "All actions are active by default"; V 1 1 "ignore turning ON with 1 click of the switch"; V 2 2 "ignore turning OFF with 1 click of the switch"; V 4 4 "ignore holding and releasing the switch"; V 8 8 "ignore double click of the switch"]; P 31 "S1 ON val sent to 2nd and 3rd groups" 2 [V 0 255 ""]; P 32 "S1 OFF val sent to 2nd and 3rd groups" 2 [V 0 255 ""]; P 33 "S1 DblClick val sent to 2nd and 3rd groups" 2 [V 0 255 ""]; P 35 "S2 assocs. sent to 4th and 5th group" 1 [V 0 0 "All actions are active by default"; V 1 1 "ignore turning on with 1 click of the switch"; V 2 2 "ignore turning off with 1 click of the switch"; V 4 4 "ignore holding and releasing the switch"; V 8 8 "ignore double click of the switch"]; P 36 "S2 ON val sent to 4th and 5th groups" 2 [V 0 255 ""]; P 36 "S2 ON val sent to 4th and 5th groups" 2 [V 0 255 ""]; P 37 "S2 OFF val sent to 4th and 5th groups" 2 [V 0 255 ""]; P 38 "S2 DblClick val sent to 4th and 5th groups" 2 [V 0 255 ""]; P 40 "Reaction to General Alarm" 1 [V 0 0 "alarm frame is ignored"; V 1 1 "turn ON after receiving the alarm frame"; V 2 2 "turn OFF after receiving the alarm frame"; V 3 3 "flash after receiving the alarm frame"]; P 41 "Reaction to Flood Alarm" 1 [V 0 0 "alarm frame is ignored"; V 1 1 "turn ON after receiving the alarm frame"; V 2 2 "turn OFF after receiving the alarm frame"; V 3 3 "flash after receiving the alarm frame"]; P 42 "Reaction to CO/CO2/Smoke Alarm" 1 [V 0 0 "alarm frame is ignored"; V 1 1 "turn ON after receiving the alarm frame"; V 2 2 "turn OFF after receiving the alarm frame"; V 3 3 "flash after receiving the alarm frame"]; P 43 "Reaction to Heat Alarm" 1 [V 0 0 "alarm frame is ignored"; V 1 1 "turn ON after receiving the alarm frame"; V 2 2 "turn OFF after receiving the alarm frame"; V 3 3 "flash after receiving the alarm frame"]; P 44 "Flashing alarm duration" 2 [V 1 32000 ""]; P 50 "First channel - power reports" 1 [V 0 100 ""]; P 51 "1st ch min time between reports" 1 [V 0 120 ""]; P 53 "1st ch energy reports" 2 [V 0 32000 ""]; P 54 "Second channel - power reports" 1 [V 0 100 ""]; P 55 "2nd ch min time between reports" 1 [V 0 120 ""]; P 57 "2nd ch energy reports" 2 [V 0 32000 ""]; P 58 "Periodic power reports" 2 [V 0 32000 ""]; P 59 "Periodic energy reports" 2 [V 0 32000 ""]; P 60 "Include own energy" 1 [V 0 0 "function inactive"; V 1 1 "function active"]].
Definition dpar293 : list gparam := [P 9 "Restore state after power failure" 1 [V 0 0 "off after power loss"; V 1 1 "restore last state"]; P 10 "First channel operating mode" 1 [V 0 0 "standard operation"; V 1 1 "delay ON"; V 2 2 "delay OFF"; V 3 3 "auto ON"; V 4 4 "auto OFF"; V 5 5 "flashing mode"]; P 11 "1st ch. reaction to switch" 1 [V 0 0 "cancel mode and set target state"; V 1 1 "no reaction to switch - mode runs until it ends"; V 2 2 "reset timer - start counting from the beginning"]; P 12 "time parameter for delay/auto ON/OFF modes" 2 [V 0 32000 ""]; P 13 "1st ch. pulse time for flashing mode" 2 [V 1 32000 ""]; P 15 "2nd ch. operating mode" 1 [V 0 0 "standard operation"; V 1 1 "delay ON"; V 2 2 "delay OFF"; V 3 3 "auto ON"; V 4 4 "auto OFF"; V 5 5 "flashing mode"]; P 16 "2nd ch. reaction to switch" 1 [V 0 0 "cancel mode and set target state"; V 1 1 "no reaction to switch - mode runs until it ends"; V 2 2 "reset timer - start counting from the beginning"]; P 17 "2nd ch. time parameter for delay" 2 [V 0 32000 ""]; P 18 "2nd ch. pulse time for flashing mode" 2 [V 1 32000 ""]; P 20 "Switch type" 1 [V 0 0 "momentary switch"; V 1 1 "toggle switch stable"; V 2 2 "toggle switch"]; P 21 "Flashing mode - reports" 1 [V 0 0 "the device does not send reports"; V 1 1 "the device sends reports"]; P 27 "Associations in Z-Wave network security mode" 1 [V 0 0 "no group sent as secure"; V 1 1 "2nd group sent as secure"; V 2 2 "3rd group sent as secure"; V 4 4 "4th group sent as secure"; V 8 8 "5th group sent as secure"; V 15 15 "all groups sent as secure"]; P 28 "S1 switch - scenes sent" 1 [V 0 0 "no scenes sent"; V 1 1 "Key pressed 1 time"; V 2 2 "Key pressed 2 times"; V 4 4 "Key pressed 3 times"; V 8 8 "Key Hold Down and Key Released"]; P 29 "S2 switch - scenes sent" 1 [V 0 0 "no scenes sent"; V 1 1 "Key pressed 1 time"; V 2 2 "Key pressed 2 times"; V 4 4 "Key pressed 3 times"; V 8 8 "Key Hold Down and Key Released"]; P 30 "S1 assocs. sent to 2nd and 3rd group" 1 [V 0 0 "All actions are active by default"; V 1 1 "ignore turning ON with 1 click of the switch"; V 2 2 "ignore turning OFF with 1 click of the switch"; V 4 4 "ignore holding and releasing the switch"; V 8 8 "ignore double click of the switch"]; P 31 "S1 ON val sent to 2nd and 3rd groups" 2 [V 0 255 ""]; P 32 "S1 OFF val sent to 2nd and 3rd groups" 2 [V 0 255 ""]; P 33 "S1 DblClick val sent to 2nd and 3rd groups" 2 [V 0 255 ""]; P 35 "S2 assocs. sent to 4th and 5th group" 1 [V 0 0 "All actions are active by default"; V 1 1 "ignore turning on with 1 click of the switch"; V 2 2 "ignore turning off with 1 click of the switch"; V 4 4 "ignore holding and releasing the switch"; V 8 8 "ignore double click of the switch"]; P 36 "S2 ON val sent to 4th and 5th groups" 2 [V 0 255 ""]; P 36 "S2 ON val sent to 4th and 5th groups" 2 [V 0 255 ""]; P 37 "S2 OFF val sent to 4th and 5th groups" 2 [V 0 255 ""]; P 38 "S2 DblClick val sent to 4th and 5th groups" 2 [V 0 255 ""]; P 40 "Reaction to General Alarm" 1 [V 0 0 "alarm frame is ignored"; V 1 1 "turn ON after receiving the alarm frame"; V 2 2 "turn OFF after receiving the alarm frame"; V 3 3 "flash after receiving the alarm frame"]; P 41 "Reaction to Flood Alarm" 1 [V 0 0 "alarm frame is ignored"; V 1 1 "turn ON after receiving the alarm frame"; V 2 2 "turn OFF after receiving the alarm frame"; V 3 3 "flash after receiving the alarm frame"]; P 42 "Reaction to CO/CO2/Smoke Alarm" 1 [V 0 0 "alarm frame is ignored"; V 1 1 "turn ON after receiving the alarm frame"; V 2 2 "turn OFF after receiving the alarm frame"; V 3 3 "flash after receiving the alarm frame"]; P 43 "Reaction to Heat Alarm" 1 [V 0 0 "alarm frame is ignored"; V 1 1 "turn ON after receiving the alarm frame"; V 2 2 "turn OFF after receiving the alarm frame"; V 3 3 "flash after receiving the alarm frame"]; P 44 "Flashing alarm duration" 2 [V 1 32000 ""]; P 50 "First channel - power reports" 1 [V 0 100 ""]; P 51 "1st ch min time between reports" 1 [V 0 120 ""]; P 53 "1st ch energy reports" 2 [V 0 32000 ""]; P 54 "Second channel - power reports" 1 [V 0 100 ""]; P 55 "2nd ch min time between reports" 1 [V 0 120 ""]; P 57 "2nd ch energy reports" 2 [V 0 32000 ""]; P 58 "Periodic power reports" 2 [V 0 32000 ""]; P 59 "Periodic energy reports" 2 [V 0 32000 ""]; P 60 "Include own energy" 1 [V 0 0 "function inactive"; V 1 1 "function active"]].
Definition dpar294 : list gparam := [P 9 "Restore state after power failure" 1 [V 0 0 "off after power loss"; V 1 1 "restore last state"]; P 10 "First channel operating mode" 1 [V 0 0 "standard operation"; V 1 1 "delay ON"; V 2 2 "delay OFF"; V 3 3 "auto ON"; V 4 4 "auto OFF"; V 5 5 "flashing mode"]; P 11 "1st ch. reaction to switch" 1 [V 0 0 "cancel mode and set target state"; V 1 1 "no reaction to switch - mode runs until it ends"; V 2 2 "reset timer - start counting from the beginning"]; P 12 "time parameter for delay/auto ON/OFF modes" 2 [V 0 32000 ""]; P 13 "1st ch. pulse time for flashing mode" 2 [V 1 32000 ""]; P 15 "2nd ch. operating mode" 1 [V 0 0 "standard operation"; V 1 1 "delay ON"; V 2 2 "delay OFF"; V 3 3 "auto ON"; V 4 4 "auto OFF"; V 5 5 "flashing mode"]; P 16 "2nd ch. reaction to switch" 1 [V 0 0 "cancel mode and set target state"; V 1 1 "no reaction to switch - mode runs until it ends"; V 2 2 "reset timer - start counting from the beginning"]; P 17 "2nd ch. time parameter for delay" 2 [V 0 32000 ""]; P 18 "2nd ch. pulse time for flashing mode" 2 [V 1 32000 ""]; P 20 "Switch type" 1 [V 0 0 "momentary switch"; V 1 1 "toggle switch stable"; V 2 2 "toggle switch"]; P 21 "Flashing mode - reports" 1 [V 0 0 "the device does not send reports"; V 1 1 "the device sends reports"]; P 27 "Associations in Z-Wave network security mode" 1 [V 0 0 "no group sent as secure"; V 1 1 "2nd group sent as secure"; V 2 2 "3rd group sent as secure"; V 4 4 "4th group sent as secure"; V 8 8 "5th group sent as secure"; V 15 15 "all groups sent as secure"]; P 28 "S1 switch - scenes sent" 1 [V 0 0 "no scenes sent"; V 1 1 "Key pressed 1 time"; V 2 2 "Key pressed 2 times"; V 4 4 "Key pressed 3 times"; V 8 8 "Key Hold Down and Key Released"]; P 29 "S2 switch - scenes sent" 1 [V 0 0 "no scenes sent"; V 1 1 "Key pressed 1 time"; V 2 2 "Key pressed 2 times"; V 4 4 "Key pressed 3 times"; V 8 8 "Key Hold Down and Key Released"]; P 30 "S1 assocs. sent to 2nd and 3rd group" 1 [V 0 0 "All actions are active by default"; V 1 1 "ignore turning ON with 1 click of the switch"; V 2 2 "ignore turning OFF with 1 click of the switch"; V 4 4 "ignore holding and releasing the switch"; V 8 8 "ignore double click of the switch"]; P 31 "S1 ON val sent to 2nd and 3rd groups" 2 [V 0 255 ""]; P 32 "S1 OFF val sent to 2nd and 3rd groups" 2 [V 0 255 ""]; P 33 "S1 DblClick val sent to 2nd and 3rd groups" 2 [V 0 255 ""]; P 35 "S2 assocs. sent to 4th and 5th group" 1 [V 0 0 "All actions are active by default"; V 1 1 "ignore turning on with 1 click of the switch"; V 2 2 "ignore turning off with 1 click of the switch"; V 4 4 "ignore holding and releasing the switch"; V 8 8 "ignore double click of the switch"]; P 36 "S2 ON val sent to 4th and 5th groups" 2 [V 0 255 ""]; P 36 "S2 ON val sent to 4th and 5th groups" 2 [V 0 255 ""]; P 37 "S2 OFF val sent to 4th and 5th groups" 2 [V 0 255 ""]; P 38 "S2 DblClick val sent to 4th and 5th groups" 2 [V 0 255 ""]; P 40 "Reaction to General Alarm" 1 [V 0 0 "alarm frame is ignored"; V 1 1 "turn ON after receiving the alarm frame"; V 2 2 "turn OFF after receiving the alarm frame"; V 3 3 "flash after receiving the alarm frame"]; P 41 "Reaction to Flood Alarm" 1 [V 0 0 "alarm frame is ignored"; V 1 1 "turn ON after receiving the alarm frame"; V 2 2 "turn OFF after receiving the alarm frame"; V 3 3 "flash after receiving the alarm frame"]; P 42 "Reaction to CO/CO2/Smoke Alarm" 1 [V 0 0 "alarm frame is ignored"; V 1 1 "turn ON after receiving the alarm frame"; V 2 2 "turn OFF after receiving the alarm frame"; V 3 3 "flash after receiving the alarm frame"]; P 43 "Reaction to Heat Alarm" 1 [V 0 0 "alarm frame is ignored"; V 1 1 "turn ON after receiving the alarm frame"; V 2 2 "turn OFF after receiving the alarm frame"; V 3 3 "flash after receiving the alarm frame"]; P 44 "Flashing alarm duration" 2 [V 1 32000 ""]; P 50 "First channel - power reports" 1 [V 0 100 ""]; P 51 "1st ch min time between reports" 1 [V 0 120 ""]; P 53 "1st ch energy reports" 2 [V 0 32000 ""]; P 54 "Second channel - power reports" 1 [V 0 100 ""]; P 55 "2nd ch min time between reports" 1 [V 0 120 ""]; P 57 "2nd ch energy reports" 2 [V 0 32000 ""]; P 58 "Periodic power reports" 2 [V 0 32000 ""]; P 59 "Periodic energy reports" 2 [V 0 32000 ""]; P 60 "Include own energy" 1 [V 0 0 "function inactive"; V 1 1 "function active"]].
Definition dpar295 : list gparam := [P 1 "Smoke Sensor sensitivity" 1 [V 1 1 "HIGH Sensitivity"; V 2 2 "MEDIUM Sensitivity"; V 3 3 "LOW Sensitivity"]; P 2 "Z-Wave notifications status" 1 [V 0 0 "All notifications disabled"; V 1 1 "Enclosure opening notification enabled"; V 2 2 "Exceeding temperature threshold notification enabled"; V 3 3 "All notifications enabled"]; P 3 "Visual indicator notifications status" 1 [V 0 0 "All notifications disabled"; V 1 1 "Enclosure opening notification enabled"; V 2 2 "Exceeding temperature threshold notification enabled"; V 3 3 "Enclosure opening notification enabled +"; V 4 4 "Lack of Z-Wave range notification"; V 5 5 "Enclosure opening notification enabled +"; V 6 6 "Exceeding temperature threshold notification enabled + "; V 7 7 "Enclosure opening notification enabled + "]; P 4 "Sound notifications status" 1 [V 0 0 "All notifications disabled"; V 1 1 "Enclosure opening notification enabled"; V 2 2 "Exceeding temperature threshold notification enabled"; V 3 3 "Enclosure opening notification enabled +"; V 4 4 "Lack of Z-Wave range notification"; V 5 5 "Enclosure opening notification enabled + "; V 6 6 "Exceeding temperature threshold notification enabled +"; V 7 7 "Enclosure opening notification enabled + "]; P 10 "Configuration of control frames in BASIC command class" 1 [V 0 0 "BASIC ON and BASIC OFF enabled"; V 1 1 "BASIC ON enabled "; V 2 2 "BASIC OFF enabled"]; P 11 "BASIC ON frame value" 2 [V 1 255 ""]; P 12 "BASIC OFF frame value" 2 [V 1 255 ""]; P 13 "Alarm broadcast" 1 [V 0 0 "broadcast inactive"; V 1 1 "FIRE ALARM broadcast (2-nd and 4-th Association Group) ..."; V 2 2 "FIRE ALARM broadcast (2-nd and 4-th Association Group) ..."; V 3 3 "FIRE ALARM broadcast (2-nd and 4-th Association Group) ..."]; P 20 "Temperature report interval" 2 [V 0 8640 ""]; P 21 "Temperature report hysteresis" 1 [V 1 100 ""]; P 30 "Temperature threshold" 1 [V 1 100 ""]; P 31 "Excess temperature signaling interval" 2 [V 1 8640 ""]; P 32 "Lack of Z-Wave range indication interval" 2 [V 1 8640 ""]].
Definition dpar296 : list gparam := [P 1 "Alarm Cancellation Delay" 2 [V 0 3600 ""]; P 2 "Acoustic and visual signals On / Off in case of alarm" 1 [V 0 0 "acoustic and visual alarms inactive"; V 1 1 "acoustic alarm inactive, visual alarm active"; V 2 2 "acoustic alarm active, visual alarm inactive"; V 3 3 "acoustic and visual alarms active"]; P 5 "Type of alarm frame sent to 1-st association group (SMOKE)" 1 [V (-127) (-127) "BASIC_SET"; V 0 0 "ALARM SENSOR (SMOKE)"]; P 7 "Forced Level of Dimming group 1" 1 [V 1 255 ""]; P 10 "Interval between successive readings of temperature sensors" 2 [V 1 32767 ""]; P 12 "Insensitiveness to temperature changes." 1 [V 0 100 ""]; P 13 "Transmitting the alarm or control frame broadcast mode" 1 [V 0 0 "Broadcast inactive"; V 1 1 "Smoke broadcast mode active, Tamper broadcast mode inactive"; V 2 2 "Smoke broadcast mode inactive, Tamper broadcast mode active"; V 3 3 "Smoke and Tamper broadcast mode active"]; P 73 "Temperature measurement compensation" 2 [V (-1000) 1000 ""]; P 80 "Z-Wave range test interval" 1 [V 0 255 ""]; P 81 "Temperature alarm threshold" 1 [V 0 255 ""]; P 82 "Smoke Sensor sensitivity" 1 [V 1 1 "High"; V 2 2 "Medium"; V 3 3 "Low"]; P 83 "Black Box sensitivity level" 1 [V 1 1 "High"; V 2 2 "Medium"; V 3 3 "Low"]; P 84 "Malfunction alarm" 1 [V (-126) 127 ""]; P 85 "Temperature alarm" 1 [V (-126) 127 ""]; P 86 "Lack of the Z-Wave range alarm" 2 [V 1 17280 ""]; P 87 "Low battery alarm" 2 [V 1 17280 ""]; P 88 "Temperature measurement compensation for report" 1 [V 0 0 "Ignore temperature compensation"; V 1 1 "Include temperature compensation"]; P 89 "Tamper alarm" 1 [V 0 0 "Tamper alarm inactive"; V 1 1 "Tamper alarm active, with cancellation option available"; V 2 2 "Tamper alarm active, without cancellation option"]].
Definition dpar297 : list gparam := [P 1 "Alarm Cancellation Delay" 2 [V 0 3600 ""]; P 2 "Acoustic and visual signals On / Off in case of alarm" 1 [V 0 0 "acoustic and visual alarms inactive"; V 1 1 "acoustic alarm inactive, visual alarm active"; V 2 2 "acoustic alarm active, visual alarm inactive"; V 3 3 "acoustic and visual alarms active"]; P 5 "Type of alarm frame sent to 1-st association group (SMOKE)" 1 [V (-127) (-127) "BASIC_SET"; V 0 0 "ALARM SENSOR (SMOKE)"]; P 7 "Forced Level of Dimming group 1" 1 [V 1 255 ""]; P 10 "Interval between successive readings of temperature sensors" 2 [V 1 32767 ""]; P 12 "Insensitiveness to temperature changes." 1 [V 0 100 ""]; P 13 "Transmitting the alarm or control frame broadcast mode" 1 [V 0 0 "Broadcast inactive"; V 1 1 "Smoke broadcast mode active, Tamper broadcast mode inactive"; V 2 2 "Smoke broadcast mode inactive, Tamper broadcast mode active"; V 3 3 "Smoke and Tamper broadcast mode active"]; P 73 "Temperature measurement compensation" 2 [V (-1000) 1000 ""]; P 80 "Z-Wave range test interval" 1 [V 0 255 ""]; P 81 "Temperature alarm threshold" 1 [V 0 255 ""]; P 82 "Smoke Sensor sensitivity" 1 [V 1 1 "High"; V 2 2 "Medium"; V 3 3 "Low"]; P 83 "Black Box sensitivity level" 1 [V 1 1 "High"; V 2 2 "Medium"; V 3 3 "Low"]; P 84 "Malfunction alarm" 1 [V (-126) 127 ""]; P 85 "Temperature alarm" 1 [V (-126) 127 ""]; P 86 "Lack of the Z-Wave range alarm" 2 [V 1 17280 ""]; P 87 "Low battery alarm" 2 [V 1 17280 ""]; P 88 "Temperature measurement compensation for report" 1 [V 0 0 "Ignore temperature compensation"; V 1 1 "Include temperature compensation"]; P 89 "Tamper alarm" 1 [V 0 0 "Tamper alarm inactive"; V 1 1 "Tamper alarm active, with cancellation option available"; V 2 2 "Tamper alarm active, without cancellation option"]].
Definition dpar298 : list gparam := [P 1 "Always on function" 1 [V 0 0 "Activated"; V 1 1 "Inactive"]; P 16 "Remember device status after power failure" 1 [V 0 0 "Do not remember state"; V 1 1 "Remember state before power failure"]; P 34 "Reaction to alarms" 1 [V 0 63 ""]; P 35 "Response to alarms" 1 [V 0 0 "No reaction"; V 1 1 "Turn ON"; V 2 2 "Turn OFF"; V 3 3 "Cycle ON/OFF"]; P 39 "Alarm duration" 2 [V 1 65535 ""]; P 40 "Immediate power report" 1 [V 1 100 ""]; P 42 "Standard power load report" 1 [V 1 100 ""]; P 43 "Power reporting frequency" 1 [V 1 255 ""]; P 45 "Reporting Changes in energy consumed by controlled devices" 1 [V 1 255 ""]; P 47 "Time Period between reports on power and energy consumption" 2 [V 1 65534 ""]; P 49 "Metering energy consumed by the Wall Plug itself." 1 [V 0 0 "Inactive"; V 1 1 "Activated"]; P 50 "DOWN value" 2 [V 0 65535 ""]; P 51 "UP value" 2 [V 0 65535 ""]; P 52 "Action in case defined power values exceeded" 1 [V 0 0 "Function inactive"; V 1 1 "Turn devices ON when power below DOWN"; V 2 2 "Turn devices OFF when power below DOWN"; V 3 3 "Turn devices ON when power above UP"; V 4 4 "Turn devices OFF when power above UP"; V 5 5 "Turn devices ON when power below DOWN and off ..."; V 6 6 "Turn devices OFF when power below DOWN ..."]; P 60 "Power load to make red ring flash violet" 2 [V 0 65535 ""]; P 61 "LED color when device is on" 1 [V 0 0 "LED will use predefined steps depending on power"; V 1 1 "LED will use continuous color depending on power"; V 2 2 "White illumination"; V 3 3 "Red illumination"; V 4 4 "Green illumination"; V 5 5 "Blue illumination"; V 6 6 "Yellow illumination"; V 7 7 "Cyan illumination"; V 8 8 "Magenta illumination"; V 9 9 "NO illumination"]; P 62 "LED color when device is off" 1 [V 0 0 "LED ring is illuminated with a color corresponding to ..."; V 1 1 "White illumination"; V 2 2 "Red illumination"; V 3 3 "Green illumination"; V 4 4 "Blue illumination"; V 5 5 "Yellow illumination"; V 6 6 "Cyan illumination"; V 7 7 "Magenta illumination"; V 8 8 "NO illumination"]; P 63 "LED color when Z Wave alarm" 1 [V 0 0 "No change in color"; V 1 1 "LED flashes RED BLUE WHITE"; V 2 2 "White illumination"; V 3 3 "Red illumination"; V 4 4 "Green illumination"; V 5 5 "Blue illumination"; V 6 6 "Yellow illumination"; V 7 7 "Cyan illumination"; V 8 8 "Magenta illumination"; V 9 9 "NO illumination"]; P 70 "Overload safety switch" 2 [V 0 65535 ""]].
Definition dpar299 : list gparam := [P 1 "Always on function" 1 [V 0 0 "Activated"; V 1 1 "Inactive"]; P 16 "Remember device status after power failure" 1 [V 0 0 "Do not remember state"; V 1 1 "Remember state before power failure"]; P 34 "Reaction to alarms" 1 [V 0 63 ""]; P 35 "Response to alarms" 1 [V 0 0 "No reaction"; V 1 1 "Turn ON"; V 2 2 "Turn OFF"; V 3 3 "Cycle ON/OFF"]; P 39 "Alarm duration" 2 [V 1 65535 ""]; P 40 "Immediate power report" 1 [V 1 100 ""]; P 42 "Standard power load report" 1 [V 1 100 ""]; P 43 "Power reporting frequency" 1 [V 1 255 ""]; P 45 "Reporting Changes in energy consumed by controlled devices" 1 [V 1 255 ""]; P 47 "Time Period between reports on power and energy consumption" 2 [V 1 65534 ""]; P 49 "Metering energy consumed by the Wall Plug itself." 1 [V 0 0 "Inactive"; V 1 1 "Activated"]; P 50 "DOWN value" 2 [V 0 65535 ""]; P 51 "UP value" 2 [V 0 65535 ""]; P 52 "Action in case defined power values exceeded" 1 [V 0 0 "Function inactive"; V 1 1 "Turn devices ON when power below DOWN"; V 2 2 "Turn devices OFF when power below DOWN"; V 3 3 "Turn devices ON when power above UP"; V 4 4 "Turn devices OFF when power above UP"; V 5 5 "Turn devices ON when power below DOWN and off when power above UP"; V 6 6 "Turn devices OFF when power below DOWN and off when power above UP"]; P 60 "Power load to make red ring flash violet" 2 [V 0 65535 ""]; P 61 "LED color when device is on" 1 [V 0 0 "LED will use predefined steps depending on power"; V 1 1 "LED will use continuous color depending on power"; V 2 2 "White illumination"; V 3 3 "Red illumination"; V 4 4 "Green illumination"; V 5 5 "Blue illumination"; V 6 6 "Yellow illumination"; V 7 7 "Cyan illumination"; V 8 8 "Magenta illumination"; V 9 9 "NO illumination"]; P 62 "LED color when device is off" 1 [V 0 0 "LED will use predefined steps depending on the last power when on"; V 1 1 "White illumination"; V 2 2 "Red illumination"; V 3 3 "Green illumination"; V 4 4 "Blue illumination"; V 5 5 "Yellow illumination"; V 6 6 "Cyan illumination"; V 7 7 "Magenta illumination"; V 8 8 "NO illumination"]; P 63 "LED color when Z Wave alarm" 1 [V 0 0 "No change in color"; V 1 1 "LED flashes RED BLUE WHITE"; V 2 2 "White illumination"; V 3 3 "Red illumination"; V 4 4 "Green illumination"; V 5 5 "Blue illumination"; V 6 6 "Yellow illumination"; V 7 7 "Cyan illumination"; V 8 8 "Magenta illumination"; V 9 9 "NO illumination"]; P 70 "Overload safety switch" 2 [V 0 65535 ""]].
Definition dpar300 : list gparam := [].
Definition dpar301 : list gparam := [P 2 "Clear_Pulse_Meter_Counts" 1 [V 0 0 "Clear Pulse Meter Counts"]; P 3 "Trigger_Mapping" 1 [V 0 0 "Disabled"; V 1 1 "SIG1 triggered/untriggered sets or clears Relay1"]; P 4 "Lower_Threshold_High" 1 [V 187 187 "Default (0xBB)"]; P 5 "Lower_Threshold_Low" 1 [V 171 171 "Default (0xAB)"]; P 6 "Upper_Threshold_High" 1 [V 255 255 "Default (0xFF)"]; P 7 "Upper_Threshold_Low" 1 [V 254 254 "Default (0xFE)"]; P 8 "Trigger_Level_And_Input_Threshold" 1 [V 0 0 "ANALOG, trigger OUTSIDE of thresholds."; V 1 1 "ANALOG, trigger BETWEEN thresholds."; V 2 2 "DIGITAL, trigger OUTSIDE of thresholds."; V 3 3 "DIGITAL, trigger BETWEEN thresholds."]; P 9 "Multilevel_AutoReport_Interval" 1 [V 0 0 "Disable Automatic Reports"; V 3 3 "Enable Reports every 30 seconds (Default)"]; P 10 "Not_Used_2" 1 [V 0 0 "Null"]; P 11 "Momentary_Relay1_Duration" 1 [V 0 0 "Disabled (Default)"; V 5 5 "500 milliseconds"]].
Definition dpar302 : list gparam := [P 2 "Clear_Pulse_Meter_Counts" 1 [V 0 0 "Clear Pulse Meter Counts"]; P 3 "Trigger_Mapping" 1 [V 0 0 "Disabled"; V 1 1 "SIG1 triggered/untriggered sets or clears Relay1"]; P 4 "Lower_Threshold_High" 1 [V 187 187 "Default (0xBB)"]; P 5 "Lower_Threshold_Low" 1 [V 171 171 "Default (0xAB)"]; P 6 "Upper_Threshold_High" 1 [V 255 255 "Default (0xFF)"]; P 7 "Upper_Threshold_Low" 1 [V 254 254 "Default (0xFE)"]; P 8 "Trigger_Level_And_Input_Threshold" 1 [V 0 0 "ANALOG, trigger OUTSIDE of thresholds."; V 1 1 "ANALOG, trigger BETWEEN thresholds."; V 2 2 "DIGITAL, trigger OUTSIDE of thresholds."; V 3 3 "DIGITAL, trigger BETWEEN thresholds."]; P 9 "Multilevel_AutoReport_Interval" 1 [V 0 0 "Disable Automatic Reports"; V 3 3 "Enable Reports every 30 seconds (Default)"]; P 10 "Not_Used_2" 1 [V 0 0 "Null"]; P 11 "Momentary_Relay1_Duration" 1 [V 0 0 "Disabled (Default)"; V 5 5 "500 milliseconds"]].
Definition dpar303 : list gparam := [P 2 "Clear_Pulse_Meter_Counts" 1 [V 0 0 "Clear Pulse Meter Counts"]; P 3 "Trigger_Mapping" 1 [V 0 0 "Disabled"; V 1 1 "SIG1 triggered/untriggered sets or clears Relay1"]; P 4 "Lower_Threshold_High" 1 [V 187 187 "Default (0xBB)"]; P 5 "Lower_Threshold_Low" 1 [V 171 171 "Default (0xAB)"]; P 6 "Upper_Threshold_High" 1 [V 255 255 "Default (0xFF)"]; P 7 "Upper_Threshold_Low" 1 [V 254 254 "Default (0xFE)"]; P 8 "Trigger_Level_And_Input_Threshold" 1 [V 0 0 "ANALOG, trigger OUTSIDE of thresholds."; V 1 1 "ANALOG, trigger BETWEEN thresholds."; V 2 2 "DIGITAL, trigger OUTSIDE of thresholds."; V 3 3 "DIGITAL, trigger BETWEEN thresholds."]; P 9 "Multilevel_AutoReport_Interval" 1 [V 0 0 "Disable Automatic Reports"; V 3 3 "Enable Reports every 30 seconds (Default)"]; P 10 "Not_Used_2" 1 [V 0 0 "Null"]; P 11 "Momentary_Relay1_Duration" 1 [V 0 0 "Disabled (Default)"; V 5 5 "500 milliseconds"]].
Definition dpar304 : list gparam := [P 2 "Clear_Pulse_Meter_Counts" 1 [V 0 0 "Clear Pulse Meter Counts"]; P 3 "Trigger_Mapping" 1 [V 0 0 "Disabled"; V 1 1 "SIG1 triggered/untriggered sets or clears Relay1"]; P 4 "Lower_Threshold_High" 1 [V 187 187 "Default (0xBB)"]; P 5 "Lower_Threshold_Low" 1 [V 171 171 "Default (0xAB)"]; P 6 "Upper_Threshold_High" 1 [V 255 255 "Default (0xFF)"]; P 7 "Upper_Threshold_Low" 1 [V 254 254 "Default (0xFE)"]; P 8 "Trigger_Level_And_Input_Threshold" 1 [V 0 0 "ANALOG, trigger OUTSIDE of thresholds."; V 1 1 "ANALOG, trigger BETWEEN thresholds."; V 2 2 "DIGITAL, trigger OUTSIDE of thresholds."; V 3 3 "DIGITAL, trigger BETWEEN thresholds."]; P 9 "Multilevel_AutoReport_Interval" 1 [V 0 0 "Disable Automatic Reports"; V 3 3 "Enable Reports every 30 seconds (Default)"]; P 10 "Not_Used_2" 1 [V 0 0 "Null"]; P 11 "Momentary_Relay1_Duration" 1 [V 0 0 "Disabled (Default)"; V 5 5 "500 milliseconds"]].
Definition dpar305 : list gparam := [P 2 "Clear_Pulse_Meter_Counts" 1 [V 0 0 "Clear Pulse Meter Counts"]; P 3 "Trigger_Mapping" 1 [V 0 0 "Disabled"; V 1 1 "SIG1 triggered/untriggered sets or clears Relay1"]; P 4 "Lower_Threshold_High" 1 [V 187 187 "Default (0xBB)"]; P 5 "Lower_Threshold_Low" 1 [V 171 171 "Default (0xAB)"]; P 6 "Upper_Threshold_High" 1 [V 255 255 "Default (0xFF)"]; P 7 "Upper_Threshold_Low" 1 [V 254 254 "Default (0xFE)"]; P 8 "Trigger_Level_And_Input_Threshold" 1 [V 0 0 "ANALOG, trigger OUTSIDE of thresholds."; V 1 1 "ANALOG, trigger BETWEEN thresholds."; V 2 2 "DIGITAL, trigger OUTSIDE of thresholds."; V 3 3 "DIGITAL, trigger BETWEEN thresholds."]; P 9 "Multilevel_AutoReport_Interval" 1 [V 0 0 "Disable Automatic Reports"; V 3 3 "Enable Reports every 30 seconds (Default)"]; P 10 "Not_Used_2" 1 [V 0 0 "Null"]; P 11 "Momentary_Relay1_Duration" 1 [V 0 0 "Disabled (Default)"; V 5 5 "500 milliseconds"]].
Definition dpar306 : list gparam := [P 1 "Delay before accept of Basic Set Off" 1 [V 0 255 ""]].
Definition dpar307 : list gparam := [P 1 "Delay before accept of Basic Set Off" 1 [V 0 255 ""]].
Definition dpar308 : list gparam := [P 1 "Delay before accept of Basic Set Off" 1 [V 0 255 ""]].
Definition dpar309 : list gparam := [P 0 "Mode" 1 [V 0 0 "Alarm Mode"; V 255 255 "Level Mode"]; P 1 "WaterLevel Timeout" 2 [V 1 32767 ""]].
Definition dpar310 : list gparam := [P 1 "Low Temperature Trigger Point" 1 [V 0 255 ""]; P 2 "High Temperature Trigger Point" 1 [V 0 255 ""]].
Definition dpar311 : list gparam := [P 1 "Low Temperature Trigger Point" 1 [V 0 255 ""]; P 2 "High Temperature Trigger Point" 1 [V 0 255 ""]].
Definition dpar312 : list gparam := [P 7 "Dimmer steps" 1 [V 1 99 ""]; P 8 "Time between dimmer steps" 1 [V 1 255 ""]; P 29 "Load sensing" 1 [V 0 0 "disable (default)"; V 1 1 "enable load sensing"]].
Definition dpar313 : list gparam := [P 4 "Invert switch" 1 [V 0 0 "Normal switch install"; V 1 1 "Inverted switch"]; P 29 "Load Sensing" 1 [V 0 1 ""]].
Definition dpar314 : list gparam := [P 4 "Invert Switch" 1 [V 0 0 "No"; V 1 1 "Yes"]; P 7 "On/Off Command Dim Step" 1 [V 1 99 ""]; P 8 "On/Off Command Dim Rate" 1 [V 1 255 ""]; P 9 "Local Control Dim Step" 1 [V 1 99 ""]; P 10 "Local Control Dim Rate" 1 [V 1 255 ""]; P 11 "ALL ON/ALL OFF Dim Step" 1 [V 1 99 ""]; P 12 "ALL ON/ALL OFF Dim Rate" 1 [V 1 255 ""]].
Definition dpar315 : list gparam := [].
Definition dpar316 : list gparam := [P 3 "Night Light" 1 [V 0 0 "LED on when switch is OFF"; V 1 1 "LED on when switch is ON"; V 2 2 "LED always off"]; P 4 "Invert Switch" 1 [V 0 0 "No"; V 1 1 "Yes"]].
Definition dpar317 : list gparam := [P 3 "Night Light" 1 [V 0 0 "LED on when switch is OFF"; V 1 1 "LED on when switch is ON"; V 2 2 "LED always off"]; P 4 "Invert Switch" 1 [V 0 0 "No"; V 1 1 "Yes"]].
Definition dpar318 : list gparam := [].
Definition dpar319 : list gparam := [].
Definition dpar320 : list gparam := [P 3 "Night Light" 1 [V 0 0 "LED on when switch is OFF"; V 1 1 "LED on when switch is ON"; V 2 2 "LED always off"]; P 4 "Invert Switch" 1 [V 0 0 "No"; V 1 1 "Yes"]].
Definition dpar321 : list gparam := [P 3 "Night Light" 1 [V 0 0 "LED on when switch is OFF"; V 1 1 "LED on when switch is ON"; V 2 2 "LED always off"]; P 4 "Invert Switch" 1 [V 0 0 "No"; V 1 1 "Yes"]; P 5 "Ignore Start-Level (Receiving)" 1 [V 0 0 "No"; V 1 1 "Yes"]; P 7 "On/Off Command Dim Step" 1 [V 1 99 ""]; P 8 "On/Off Command Dim Rate" 1 [V 1 255 ""]; P 9 "Local Control Dim Step" 1 [V 1 99 ""]; P 10 "Local Control Dim Rate" 1 [V 1 255 ""]; P 11 "ALL ON/ALL OFF Dim Step" 1 [V 1 99 ""]; P 12 "ALL ON/ALL OFF Dim Rate" 1 [V 1 255 ""]].
Definition dpar322 : list gparam := [P 3 "Night Light" 1 [V 0 0 "LED on when switch is OFF"; V 1 1 "LED on when switch is ON"; V 2 2 "LED always off"]; P 4 "Invert Switch" 1 [V 0 0 "No"; V 1 1 "Yes"]; P 5 "Ignore Start-Level (Receiving)" 1 [V 0 0 "No"; V 1 1 "Yes"]; P 7 "On/Off Command Dim Step" 1 [V 1 99 ""]; P 8 "On/Off Command Dim Rate" 1 [V 1 255 ""]; P 9 "Local Control Dim Step" 1 [V 1 99 ""]; P 10 "Local Control Dim Rate" 1 [V 1 255 ""]; P 11 "ALL ON/ALL OFF Dim Step" 1 [V 1 99 ""]; P 12 "ALL ON/ALL OFF Dim Rate" 1 [V 1 255 ""]].
Definition dpar323 : list gparam := [P 0 "" 0 [V 0 0 ""]; P 3 "Night Light" 1 [V 0 0 "LED on when switch is OFF"; V 1 1 "LED on when switch is ON"; V 2 2 "LED always off"]; P 4 "Invert Switch" 1 [V 0 0 "No"; V 1 1 "Yes"]].
Definition dpar324 : list gparam := [P 0 "" 0 [V 0 0 ""]; P 3 "Night Light" 1 [V 0 0 "LED on when switch is OFF"; V 1 1 "LED on when switch is ON"; V 2 2 "LED always off"]; P 4 "Invert Switch" 1 [V 0 0 "No"; V 1 1 "Yes"]].
Definition dpar325 : list gparam := [P 3 "Night Light" 1 [V 0 0 "LED on when switch is OFF"; V 1 1 "LED on when switch is ON"; V 2 2 "LED always off"]; P 4 "Invert Switch" 1 [V 0 0 "No"; V 1 1 "Yes"]; P 5 "Ignore Start-Level (Receiving)" 1 [V 0 0 "No"; V 1 1 "Yes"]; P 7 "On/Off Command Dim Step" 1 [V 1 99 ""]; P 8 "On/Off Command Dim Rate" 1 [V 1 255 ""]; P 9 "Local Control Dim Step" 1 [V 1 99 ""]; P 10 "Local Control Dim Rate" 1 [V 1 255 ""]; P 11 "ALL ON/ALL OFF Dim Step" 1 [V 1 99 ""]; P 12 "ALL ON/ALL OFF Dim Rate" 1 [V 1 255 ""]].
Definition dpar326 : list gparam := [P 3 "Night Light" 1 [V 0 0 "LED on when switch is OFF"; V 1 1 "LED on when switch is ON"; V 2 2 "LED always off"]; P 4 "Invert Switch" 1 [V 0 0 "No"; V 1 1 "Yes"]].
Definition dpar327 : list gparam := [P 3 "Night Light" 1 [V 0 0 "LED on when switch is OFF"; V 1 1 "LED on when switch is ON"; V 2 2 "LED always off"]; P 4 "Invert Switch" 1 [V 0 0 "No"; V 1 1 "Yes"]; P 5 "Ignore Start-Level (Receiving)" 1 [V 0 0 "No"; V 1 1 "Yes"]; P 7 "On/Off Command Dim Step" 1 [V 1 99 ""]; P 8 "On/Off Command Dim Rate" 1 [V 1 255 ""]; P 9 "Local Control Dim Step" 1 [V 1 99 ""]; P 10 "Local Control Dim Rate" 1 [V 1 255 ""]; P 11 "ALL ON/ALL OFF Dim Step" 1 [V 1 99 ""]; P 12 "ALL ON/ALL OFF Dim Rate" 1 [V 1 255 ""]].
Definition dpar328 : list gparam := [P 3 "Night Light" 1 [V 0 0 "LED on when switch is OFF"; V 1 1 "LED on when switch is ON"; V 2 2 "LED is always OFF"]; P 4 "Invert Switch" 1 [V 0 0 "No"; V 1 1 "Yes"]].
Definition dpar329 : list gparam := [P 3 "LED light" 1 [V 0 0 "reset to factory default"; V 1 1 "LED is on when connected device is on"; V 2 2 "LED is off at all times"]].
Definition dpar330 : list gparam := [].
Definition dpar331 : list gparam := [P 3 "LED light" 1 [V 0 0 "LED on when switch is OFF"; V 1 1 "LED on when switch is ON"; V 2 2 "LED is always off"]].
Definition dpar332 : list gparam := [P 3 "Night Light" 1 [V 0 0 "LED on when switch is OFF"; V 1 1 "LED on when switch is ON"; V 2 2 "LED always off"]; P 4 "Invert Switch" 1 [V 0 0 "No"; V 1 1 "Yes"]; P 5 "Ignore Start-Level (Receiving)" 1 [V 0 0 "No"; V 1 1 "Yes"]; P 7 "On/Off Command Dim Step" 1 [V 1 99 ""]; P 8 "On/Off Command Dim Rate" 1 [V 1 255 ""]; P 9 "Local Control Dim Step" 1 [V 1 99 ""]; P 10 "Local Control Dim Rate" 1 [V 1 255 ""]; P 11 "ALL ON/ALL OFF Dim Step" 1 [V 1 99 ""]; P 12 "ALL ON/ALL OFF Dim Rate" 1 [V 1 255 ""]].
Definition dpar333 : list gparam := [P 5 "Ignore Start-Level (Receiving)" 1 [V 0 0 "No"; V 1 1 "Yes"]; P 7 "On/Off Command Dim Step" 1 [V 1 99 ""]; P 8 "On/Off Command Dim Rate" 1 [V 1 255 ""]; P 9 "Local Control Dim Step" 1 [V 1 99 ""]; P 10 "Local Control Dim Rate" 1 [V 1 255 ""]; P 11 "ALL ON/ALL OFF Dim Step" 1 [V 1 99 ""]; P 12 "ALL ON/ALL OFF Dim Rate" 1 [V 1 255 ""]; P 29 "Load Sensing" 1 [V 0 0 "Load sensing is disabled"; V 1 1 "Load sensing is enabled"]].
Definition dpar334 : list gparam := [P 3 "Night Light" 1 [V 0 0 "LED on when switch is OFF"; V 1 1 "LED on when switch is ON"; V 2 2 "LED always off"]; P 4 "Invert Switch" 1 [V 0 0 "No"; V 1 1 "Yes"]].
Definition dpar335 : list gparam := [P 3 "Night Light" 1 [V 0 0 "LED on when switch is OFF"; V 1 1 "LED on when switch is ON"; V 2 2 "LED always off"]; P 4 "Invert Switch" 1 [V 0 0 "No"; V 1 1 "Yes"]].
Definition dpar336 : list gparam := [P 3 "Night Light" 1 [V 0 0 "LED on when switch is OFF"; V 1 1 "LED on when switch is ON"; V 2 2 "LED always off"]; P 4 "Invert Switch" 1 [V 0 0 "No"; V 1 1 "Yes"]].
Definition dpar337 : list gparam := [].
Definition dpar338 : list gparam := [P 13 "Motion Sensor" 1 [V 1 1 "Low Sensitivity"; V 2 2 "Medium Sensitivity"; V 3 3 "High Sensitivity"]; P 18 "PIR Timeout Duration" 1 [V 1 1 "1 min to 60 min"; V 255 255 "5 seconds"]; P 20 "Basic Set, Notification and Basic Report" 1 [V 1 1 "Motion Sensor will send out Notification"; V 2 2 "Motion Sensor will send out Basic Set"; V 3 3 "Motion Sensor will sendout Basic Report"]; P 28 "Enable & Disable the LED indication when PIR is triggered" 1 [V 0 0 "Disable"; V 1 1 "Enable"]].
Definition dpar339 : list gparam := [].
Definition dpar340 : list gparam := [].
Definition dpar341 : list gparam := [P 0 "Min. variation of load current" 1 [V 0 100 ""]; P 1 "No communication light" 1 [V 0 255 ""]; P 2 "Wheel position" 1 [V 128 128 "Black"; V 129 129 "Green"; V 130 130 "Dark Blue"; V 131 131 "Red"; V 132 132 "Yellow"; V 133 133 "Purple"; V 134 134 "Orange"; V 135 135 "Light Blue"; V 136 136 "Pink"; V 137 137 "Locked"]; P 3 "Power-on state" 1 [V 0 0 "All OFF"; V 1 1 "Remember last state"; V 2 2 "All ON"]; P 4 "LED for network error" 1 [V 0 0 "Disable the LED for network error"; V 1 1 "Enable the LED for network error"]].
Definition dpar342 : list gparam := [P 0 "Min. variation of load current" 1 [V 0 100 ""]; P 1 "No communication light" 1 [V 0 255 ""]; P 2 "Wheel position" 1 [V 128 128 "Black"; V 129 129 "Green"; V 130 130 "Dark Blue"; V 131 131 "Red"; V 132 132 "Yellow"; V 133 133 "Purple"; V 134 134 "Orange"; V 135 135 "Light Blue"; V 136 136 "Pink"; V 137 137 "Locked"]; P 3 "Power-on state" 1 [V 0 0 "All OFF"; V 1 1 "Remember last state"; V 2 2 "All ON"]; P 4 "LED for network  error" 1 [V 0 0 "Disable the LED for network error"; V 1 1 "Enable the LED for network error"]].
Definition dpar343 : list gparam := [P 0 "Min. variation of load current" 1 [V 0 100 ""]; P 1 "No communication light" 1 [V 0 255 ""]; P 2 "Wheel position" 1 [V 128 128 "Black"; V 129 129 "Green"; V 130 130 "Dark Blue"; V 131 131 "Red"; V 132 132 "Yellow"; V 133 133 "Purple"; V 134 134 "Orange"; V 135 135 "Light Blue"; V 136 136 "Pink"; V 137 137 "Locked"]; P 3 "Power-on state" 1 [V 0 0 "All OFF"; V 1 1 "Remember last state"; V 2 2 "All ON"]; P 4 "LED for network  error" 1 [V 0 0 "Disable the LED for network error"; V 1 1 "Enable the LED for network error"]].
Definition dpar344 : list gparam := [P 20 "Overload Protection" 1 [V 0 1 ""]; P 21 "Device Status after Power Failure" 1 [V 0 2 ""]; P 24 "Notifcation on Load Change" 1 [V 0 2 ""]; P 27 "Indicator Modes" 1 [V 0 1 ""]; P 151 "Threshold of power report" 2 [V 0 65535 ""]; P 152 "Percentage Threshold of Power Report" 1 [V 0 255 ""]; P 171 "Power Report Frequency" 4 [V 5 2678400 ""]; P 172 "Energy Report Frequency" 4 [V 5 2678400 ""]; P 173 "Voltage Report Frequency" 4 [V 5 2678400 ""]; P 174 "Electricity Report Frequency" 4 [V 5 2678400 ""]].
Definition dpar345 : list gparam := [].
Definition dpar346 : list gparam := [P 20 "Overload Protection" 1 [V 0 0 "Function Disabled"; V 1 1 "Function enabled"]; P 21 "Device Status After Power Failure." 1 [V 0 0 "Memorizes its state after a power failure"; V 1 1 "Does not memorize its state after power failure  - after reconnect ON."; V 2 2 "Does not memorize its state after power failure - after reconnect OFF."]; P 24 "Load Status Change Notification" 1 [V 0 0 "Function is disabled"; V 1 1 "Send Basic Report"; V 2 2 "Send Basic Report only when Load Condition is not changed by Command."]; P 27 "Indicator Modes" 1 [V 0 0 "Will work in indicator mode."; V 1 1 "Will work in indicator mode for 5 seconds, when the  load changed."]; P 151 "Power Report Threshold" 2 [V 0 65535 ""]; P 152 "Power Report Percentage Threshold " 1 [V 0 255 ""]; P 171 "Power Report Frequence" 4 [V 5 2678400 ""]; P 172 "Energy Report Frequence" 4 [V 5 2678400 ""]; P 173 "Voltage Report Frequency" 4 [V 5 2678400 ""]; P 174 "Electricity Report Frequency" 4 [V 5 2678400 ""]].
Definition dpar347 : list gparam := [].
Definition dpar348 : list gparam := [].
Definition dpar349 : list gparam := [].
Definition dpar350 : list gparam := [].
Definition dpar351 : list gparam := [].
Definition dpar352 : list gparam := [P 1 "Sensitivity" 1 [V 0 255 ""]; P 2 "On Time" 1 [V 0 255 ""]; P 3 "LED On/Off" 1 [V 0 0 "Off"; V 255 255 "On"]; P 4 "Light Threshold" 1 [V 0 255 ""]; P 5 "Stay Awake" 1 [V 0 255 ""]; P 6 "On Value" 1 [V 0 255 ""]].
Definition dpar353 : list gparam := [P 1 "Sensitivity" 1 [V 0 255 ""]; P 2 "On Time" 1 [V 0 255 ""]; P 3 "LED On/Off" 1 [V 0 0 "Off"; V 255 255 "On"]; P 4 "Light Threshold" 1 [V 0 255 ""]; P 5 "Stay Awake" 1 [V 0 255 ""]; P 6 "On Value" 1 [V 0 255 ""]].
Definition dpar354 : list gparam := [P 1 "OnTime" 1 [V 0 127 ""]; P 2 "OnLevel" 1 [V (-1) 99 ""]; P 3 "LiteMin" 1 [V 0 127 ""]; P 4 "TempMin" 1 [V 0 127 ""]; P 5 "TempAdj" 1 [V (-127) 128 ""]].
Definition dpar355 : list gparam := [P 4 "Orientation" 1 [V 0 0 "Normal"; V 1 1 "Inverted"]; P 7 "Remote Dimming Level Increment" 1 [V 1 99 ""]; P 8 "Remote Dimming Step Duration" 1 [V 1 255 ""]; P 9 "Local Dimming Level Increment" 1 [V 1 99 ""]; P 10 "Local Dimming Step Duration" 2 [V 1 255 ""]].
Definition dpar356 : list gparam := [P 3 "Indicator LED" 1 [V 0 0 "LED on when switch is OFF"; V 1 1 "LED on when switch is ON"; V 2 2 "LED always off"]; P 4 "Orientation" 1 [V 0 0 "Normal"; V 1 1 "Inverted"]].
Definition dpar357 : list gparam := [].
Definition dpar358 : list gparam := [].
Definition dpar359 : list gparam := [P 1 "Enable Temperature Sensor" 1 [V 0 0 "Disable"; V 255 255 "Enable"]; P 2 "Temperature Scale" 1 [V 0 0 "Celsius"; V 255 255 "Fahrenheit"]; P 3 "Delta T" 1 [V 0 255 ""]].
Definition dpar360 : list gparam := [P 1 "Temperature Scale" 1 [V 0 0 "Celsius"; V 255 255 "Kelvin"]; P 2 "Lower temperature limit" 1 [V 0 255 ""]; P 3 "Upper temperature limit" 1 [V 0 255 ""]; P 4 "Delta T" 1 [V 0 255 ""]].
Definition dpar361 : list gparam := [].
Definition dpar362 : list gparam := [P 1 "Fail Save timer" 1 [V 0 255 ""]; P 2 "Temperature Scale" 2 [V 0 127 ""]; P 3 "Temperature reporting intervals" 2 [V 0 32767 ""]; P 4 "Delta configuration temperature reporting" 2 [V 1 100 ""]; P 5 "Temperature Cutoff" 2 [V 1 1000 ""]].
Definition dpar363 : list gparam := [P 1 "Fail Save timer" 1 [V 0 255 ""]; P 2 "Temperature Scale" 2 [V 0 127 ""]; P 3 "Temperature reporting intervals" 2 [V 0 32767 ""]; P 4 "Delta configuration temperature reporting" 2 [V 1 100 ""]; P 5 "Temperature Cutoff" 2 [V 1 1000 ""]].
Definition dpar364 : list gparam := [].
Definition dpar365 : list gparam := [].
Definition dpar366 : list gparam := [P 1 "Meter register offset" 4 [V 0 99999999 ""]; P 2 "Meter reading reporting intervals" 2 [V 1 10000 ""]; P 3 "Delta config for meter reading" 2 [V 0 10000 ""]; P 4 "Mechanical meter serial number" 4 [V 0 0 ""]; P 5 "Temperature monitor on / off" 1 [V 0 1 ""]; P 6 "Temperature delta" 1 [V 0 30 ""]; P 7 "Temperature Alarm Threshold" 1 [V 0 40 ""]].
Definition dpar367 : list gparam := [P 1 "Door Lock Mode" 1 [V 0 0 "Disable Away Manual Lock"; V 1 1 "Disable Away Auto Lock"; V 2 2 "Enable Away Manual Lock"; V 3 3 "Enable Away Auto Lock"]; P 2 "RFID Register Mode" 2 [V 0 0 ""]].
Definition dpar368 : list gparam := [].
Definition dpar369 : list gparam := [P 0 "Maximum dim level" 1 [V 0 99 ""]; P 1 "Report node" 1 [V 0 255 ""]; P 2 "B&O IR support" 1 [V 0 0 "disabled"; V 1 1 "enabled"]; P 3 "Dimming type" 1 [V 0 0 "Trailing edge"; V 1 1 "Leading edge"]; P 4 "Dimming level duration" 1 [V 1 255 ""]; P 5 "Set level duration" 1 [V 1 255 ""]; P 6 "Long dim duration" 1 [V 0 255 ""]; P 7 "Touch press time" 1 [V 1 255 ""]; P 8 "Touch Multiple Press Time" 1 [V 0 255 ""]; P 9 "Touch Hold Time" 1 [V 0 255 ""]; P 10 "Network Update Interval" 2 [V 0 65535 ""]; P 11 "Rediscover Interval" 2 [V 0 65535 ""]].
Definition dpar370 : list gparam := [P 1 "Report node" 1 [V 0 255 ""]; P 2 "BO IR support" 1 [V 0 0 "disabled"; V 1 1 "enabled"]].
Definition dpar371 : list gparam := [].
Definition dpar372 : list gparam := [].
Definition dpar373 : list gparam := [].
Definition dpar374 : list gparam := [].
Definition dpar375 : list gparam := [].
Definition dpar376 : list gparam := [].
Definition dpar377 : list gparam := [].
Definition dpar378 : list gparam := [].
Definition dpar379 : list gparam := [].
Definition dpar380 : list gparam := [].
Definition dpar381 : list gparam := [].
Definition dpar382 : list gparam := [].
Definition dpar383 : list gparam := [P 31 "Auto Buzzer" 1 [V 0 0 "OFF"; V 1 1 "ON"]; P 31 "Auto Lock" 1 [V 0 0 "OFF"; V 1 1 "ON"]; P 31 "Lock LED Status" 1 [V 0 0 "OFF"; V 1 1 "ON"]; P 40 "Factory Default" 1 [V 1 1 "Factory Default"]].
Definition dpar384 : list gparam := [].
Definition dpar385 : list gparam := [P 1 "Fade On Time" 1 [V 0 253 ""]; P 2 "Fade Off Time" 1 [V 0 253 ""]; P 3 "Minimum Light Level" 1 [V 0 100 ""]; P 4 "Maximum Light Level" 1 [V 0 100 ""]; P 5 "Preset Light Level" 1 [V 0 100 ""]; P 6 "LED Dim Level Indicator Timeout" 1 [V 0 255 ""]; P 7 "Locator LED Status" 1 [V 0 255 ""]; P 8 "Load Type" 1 [V 0 2 ""]].
Definition dpar386 : list gparam := [].
Definition dpar387 : list gparam := [P 0 "" 0 [V 0 0 ""]; P 3 "Night Light" 1 [V 0 0 "LED on when switch is OFF"; V 1 1 "LED on when switch is ON"; V 2 2 "LED always off"]; P 4 "Invert Switch" 1 [V 0 0 "No"; V 1 1 "Yes"]; P 5 "Ignore Start-Level (Receiving)" 1 [V 0 0 "No"; V 1 1 "Yes"]; P 7 "On/Off Command Dim Step" 1 [V 1 99 ""]; P 8 "On/Off Command Dim Rate" 1 [V 1 255 ""]; P 9 "Local Control Dim Step" 1 [V 1 99 ""]; P 10 "Local Control Dim Rate" 1 [V 1 255 ""]; P 11 "ALL ON/ALL OFF Dim Step" 1 [V 1 99 ""]; P 12 "ALL ON/ALL OFF Dim Rate" 1 [V 1 255 ""]].
Definition dpar388 : list gparam := [P 0 "" 0 [V 0 0 ""]; P 3 "Night Light" 1 [V 0 0 "LED on when switch is OFF"; V 1 1 "LED on when switch is ON"; V 2 2 "LED always off"]; P 4 "Invert Switch" 1 [V 0 0 "No"; V 1 1 "Yes"]; P 5 "Ignore Start-Level (Receiving)" 1 [V 0 0 "No"; V 1 1 "Yes"]; P 7 "On/Off Command Dim Step" 1 [V 1 99 ""]; P 8 "On/Off Command Dim Rate" 1 [V 1 255 ""]; P 9 "Local Control Dim Step" 1 [V 1 99 ""]; P 10 "Local Control Dim Rate" 1 [V 1 255 ""]; P 11 "ALL ON/ALL OFF Dim Step" 1 [V 1 99 ""]; P 12 "ALL ON/ALL OFF Dim Rate" 1 [V 1 255 ""]].
Definition dpar389 : list gparam := [].
Definition dpar390 : list gparam := [].
Definition dpar391 : list gparam := [].
Definition dpar392 : list gparam := [].
Definition dpar393 : list gparam := [].
Definition dpar394 : list gparam := [].
Definition dpar395 : list gparam := [].
Definition dpar396 : list gparam := [].
Definition dpar397 : list gparam := [].
Definition dpar398 : list gparam := [].
Definition dpar399 : list gparam := [].
Definition dpar400 : list gparam := [].
Definition dpar401 : list gparam := [].
Definition dpar402 : list gparam := [].
Definition dpar403 : list gparam := [].
Definition dpar404 : list gparam := [].
Definition dpar405 : list gparam := [].
Definition dpar406 : list gparam := [].
Definition dpar407 : list gparam := [P 3 "Night Light" 1 [V 0 0 "No"; V 1 1 "Yes"]].
Definition dpar408 : list gparam := [].
Definition dpar409 : list gparam := [P 1 "Dim Level Memory" 1 [V 0 0 "Disable dim level memory"; V 1 1 "Enable dim level memory"]].
Definition dpar410 : list gparam := [].
Definition dpar411 : list gparam := [].
Definition dpar412 : list gparam := [P 29 "Load Sense" 1 [V 0 0 "Disable load sense"; V 1 1 "Enable load sense"]].
Definition dpar413 : list gparam := [P 104 "Mode" 1 [V 0 0 "Flash Mode"; V 1 1 "ON/OFF Operation"]].
Definition dpar414 : list gparam := [].
Definition dpar415 : list gparam := [P 1 "Siren / Strobe Mode" 1 [V 0 0 "Siren and Strobe"; V 1 1 "Siren Ony"; V 2 2 "Strobe Only"]; P 2 "Auto Stop Time" 1 [V 0 0 "30 Seconds"; V 1 1 "60 Seconds"; V 2 2 "120 Seconds"]].
Definition dpar416 : list gparam := [P 0 "Siren Strobe Mode" 1 [V 0 0 "All Enabled"; V 1 1 "Siren Only"; V 2 2 "Strobe Only"]; P 1 "Alarm auto stop" 1 [V 0 0 "30 seconds"; V 1 1 "60 seconds"; V 2 2 "120 seconds"; V 3 3 "Continuous"]].
Definition dpar417 : list gparam := [].
Definition dpar418 : list gparam := [P 1 "Re-trigger Wait Time" 1 [V 1 255 ""]].
Definition dpar419 : list gparam := [P 1 "Dim Start Level" 1 [V 0 0 "Use Start Level"; V 1 1 "Ignore Start Level"]; P 3 "LED Indication" 1 [V 0 0 "0"; V 1 1 "1"]; P 4 "Invert Switch" 1 [V 0 0 "Top-ON, Bottom-OFF "; V 1 1 "Bottom-ON, Top-OFF"]; P 14 "Enable Shade Control Group 2" 1 [V 0 0 "Disable"; V 1 1 "Enable"]; P 15 "Enable Shade Control Group 3" 1 [V 0 0 "Disable"; V 1 1 "Enable"]; P 19 "LED Transmission Indication" 1 [V 0 0 "Disable Flicker"; V 1 1 "Flicker while transmitting"; V 2 2 "Flicker for 1 second"]].
Definition dpar420 : list gparam := [P 3 "Night Light" 1 [V 0 0 "On when load is on"; V 1 1 "Off when load is on"]].
Definition dpar421 : list gparam := [P 3 "Night Light" 1 [V 0 0 "On when load is on"; V 1 1 "Off when load is on"]; P 4 "Invert Switch" 1 [V 0 0 "Top-ON, Bottom-OFF "; V 1 1 "Bottom-ON, Top-OFF"]].
Definition dpar422 : list gparam := [P 1 "Dim Start Level" 1 [V 0 0 "Use Start Level"; V 1 1 "Ignore Start Level"]; P 2 "Suspend Group 4" 1 [V 0 0 "Enable Group 4"; V 1 1 "Disable Group 4"]; P 3 "Night Light" 1 [V 0 0 "On when load is on"; V 1 1 "On when load is off"]; P 4 "Invert Switch" 1 [V 0 0 "Top-ON, Bottom-OFF "; V 1 1 "Bottom-ON, Top-OFF"]; P 5 "Ignore start level when recieving dim commands" 1 [V 0 0 "Use start level"; V 1 1 "Ignore start level"]; P 7 "ON/OFF dim rate" 1 [V 1 99 ""]; P 8 "ON/OFF dim rate" 1 [V 1 255 ""]; P 9 "Local control dim rate" 1 [V 1 99 ""]; P 10 "Local control dim rate" 1 [V 1 255 ""]; P 11 "ALL ON/ ALL OFF dim rate" 1 [V 1 99 ""]; P 12 "ALL ON/ ALL OFF dim rate" 1 [V 1 255 ""]; P 13 "Disable group 4 during a dim command" 1 [V 0 0 "Enable"; V 1 1 "Disable"]; P 14 "Enable Shade Control Group 2" 1 [V 0 0 "Disable"; V 1 1 "Enable"]; P 15 "Enable Shade Control Group 3" 1 [V 0 0 "Disable"; V 1 1 "Enable"]; P 16 "Enable Shade Control Group 1" 1 [V 0 0 "Disable"; V 1 1 "Enable"]; P 19 "LED Transmission Indication" 1 [V 0 0 "Disable Flicker"; V 1 1 "Flicker while transmitting"; V 2 2 "Flicker for 1 second"]; P 20 "Poll: minutes" 1 [V 1 255 ""]; P 21 "Poll first node in group 1" 1 [V 0 0 "Do not poll first node in group"; V 1 1 "Poll first node in group"]].
Definition dpar423 : list gparam := [P 1 "Upper paddle buttons mode" 1 [V 0 0 "Separate mode (toggle mode)."; V 1 1 "Pair mode"]; P 2 "Lower paddle buttons mode" 1 [V 0 0 "Separate mode (toggle mode)."; V 1 1 "Pair mode"]; P 3 "LED indication #1" 1 [V 0 0 "LED indication is disabled"; V 1 1 "Indicates corresponding button"; V 2 2 "Inverted indication"; V 3 3 "Status of corresponding paddle"; V 4 4 "Corresponding paddle, with inverted indication."; V 5 5 "Status of the built-in relay."; V 6 6 "Status of the built-in relay, inverted indication."; V 7 7 "5 seconds indication"]; P 4 "LED indication #2" 1 [V 0 0 "LED indication is disabled"; V 1 1 "Indicates corresponding button"; V 2 2 "Inverted indication"; V 3 3 "Status of corresponding paddle"; V 4 4 "Corresponding paddle, with inverted indication."; V 5 5 "Status of the built-in relay."; V 6 6 "Status of the built-in relay, inverted indication."; V 7 7 "5 seconds indication"]; P 5 "LED indication #3" 1 [V 0 0 "LED indication is disabled"; V 1 1 "Indicates corresponding button"; V 2 2 "Inverted indication"; V 3 3 "Status of corresponding paddle"; V 4 4 "Corresponding paddle, with inverted indication."; V 5 5 "Status of the built-in relay."; V 6 6 "Status of the built-in relay, inverted indication."; V 7 7 "5 seconds indication"]; P 6 "LED indication #4" 1 [V 0 0 "LED indication is disabled"; V 1 1 "Indicates corresponding button"; V 2 2 "Inverted indication"; V 3 3 "Status of corresponding paddle"; V 4 4 "Corresponding paddle, with inverted indication."; V 5 5 "Status of the built-in relay."; V 6 6 "Status of the built-in relay, inverted indication."; V 7 7 "5 seconds indication"]; P 7 "Percentage of light in the LED #1 when On" 1 [V 0 100 ""]; P 8 "Percentage of light in the LED #2 when On" 1 [V 0 100 ""]; P 9 "Percentage of light in the LED #3 when On" 1 [V 0 100 ""]; P 10 "Percentage of light in the LED #4 when On" 1 [V 0 100 ""]; P 11 "Percentage of light in the LED #1 when Off" 1 [V 0 100 ""]; P 12 "Percentage of light in the LED #2 when Off" 1 [V 0 100 ""]; P 13 "Percentage of light in the LED #3 when Off" 1 [V 0 100 ""]; P 14 "Percentage of light in the LED #4 when Off" 1 [V 0 100 ""]; P 15 "Relay mode" 1 [V 0 0 "Relay is disabled."; V 1 1 "Relay is controlled by button #1"; V 2 2 "Relay is controlled by button #2"; V 3 3 "Relay is controlled by button #3"; V 4 4 "Relay is controlled by button #4"; V 5 5 "Relay is activated for one second, button #1"; V 6 6 "Relay is activated for half a second, button #2 "; V 7 7 "Relay is activated for half a second, button #3 "; V 8 8 "Relay is activated for half a second, button #4"; V 9 9 "Relay follows the state of button #1"; V 10 10 "Relay follows the state of button #2"; V 11 11 "Relay follows the state of button #3"; V 12 12 "Relay follows the state of button #4"; V 13 13 "Relay is only controlled by commands sent to the root device"]; P 16 "Indicator mode." 1 [V 0 0 "Indicator Set level used to control the LED."; V 1 1 "Indicator Set level values and internal LED activations."]; P 17 "Scene notification offset." 1 [V 0 0 "Scene notifications are turned off."; V 1 1 "Send scene value for button #"]; P 18 "Disable House Cleaning." 1 [V 0 0 "House Cleaning Mode is enabled"; V 1 1 " 1 House Cleaning Mode is disabled."]; P 19 "Multilevel Switch (button #1) Disabled/Enabled" 4 [V 0 0 "Disabled"; V 1 1 "Enabled"]; P 19 "Multilevel Switch - Upper switch value" 4 [V 0 255 ""]; P 19 "Multilevel Switch - Lower switch value" 4 [V 0 99 ""]; P 20 "Multilevel Switch (button #2) Disabled/Enabled" 4 [V 0 0 "Disabled"; V 1 1 "Enabled"]; P 20 "Multilevel Switch - Upper switch value" 4 [V 0 255 ""]; P 20 "Multilevel Switch - Lower switch value" 4 [V 0 99 ""]; P 21 "Multilevel Switch (button #3) Disabled/Enabled" 4 [V 0 0 "Disabled"; V 1 1 "Enabled"]; P 21 "Multilevel Switch - Upper switch value" 4 [V 0 255 ""]; P 21 "Multilevel Switch - Lower switch value" 4 [V 0 99 ""]; P 22 "Multilevel Switch (button #4) Disabled/Enabled" 4 [V 0 0 "Disabled"; V 1 1 "Enabled"]; P 22 "Multilevel Switch - Upper switch value" 4 [V 0 255 ""]; P 22 "Multilevel Switch - Lower switch value" 4 [V 0 99 ""]; P 23 "Control of association groups (button #1)." 1 [V 0 0 "Association groups will not be switched."; V 1 1 "Association groups will be switched,"]; P 24 "Control of association groups (button #2)." 1 [V 0 0 "Association groups will not be switched."; V 1 1 "Association groups will be switched,"]; P 25 "Control of association groups (button #3)." 1 [V 0 0 "Association groups will not be switched."; V 1 1 "Association groups will be switched,"]; P 26 "Control of association groups (button #4)." 1 [V 0 0 "Association groups will not be switched."; V 1 1 "Association groups will be switched,"]].
Definition dpar424 : list gparam := [P 1 "Upper paddle buttons mode" 1 [V 0 0 "Separate mode (toggle mode)."; V 1 1 "Pair mode"]; P 2 "Lower paddle buttons mode" 1 [V 0 0 "Separate mode (toggle mode)."; V 1 1 "Pair mode"]; P 3 "LED indication #1" 1 [V 0 0 "LED indication is disabled"; V 1 1 "Indicates corresponding button"; V 2 2 "Inverted indication"; V 3 3 "Status of corresponding paddle"; V 4 4 "Corresponding paddle, with inverted indication."; V 5 5 "Status of the built-in relay."; V 6 6 "Status of the built-in relay, inverted indication."; V 7 7 "5 seconds indication"]; P 4 "LED indication #2" 1 [V 0 0 "LED indication is disabled"; V 1 1 "Indicates corresponding button"; V 2 2 "Inverted indication"; V 3 3 "Status of corresponding paddle"; V 4 4 "Corresponding paddle, with inverted indication."; V 5 5 "Status of the built-in relay."; V 6 6 "Status of the built-in relay, inverted indication."; V 7 7 "5 seconds indication"]; P 5 "LED indication #3" 1 [V 0 0 "LED indication is disabled"; V 1 1 "Indicates corresponding button"; V 2 2 "Inverted indication"; V 3 3 "Status of corresponding paddle"; V 4 4 "Corresponding paddle, with inverted indication."; V 5 5 "Status of the built-in relay."; V 6 6 "Status of the built-in relay, inverted indication."; V 7 7 "5 seconds indication"]; P 6 "LED indication #4" 1 [V 0 0 "LED indication is disabled"; V 1 1 "Indicates corresponding button"; V 2 2 "Inverted indication"; V 3 3 "Status of corresponding paddle"; V 4 4 "Corresponding paddle, with inverted indication."; V 5 5 "Status of the built-in relay."; V 6 6 "Status of the built-in relay, inverted indication."; V 7 7 "5 seconds indication"]; P 7 "Percentage of light in the LED #1 when On" 1 [V 0 100 ""]; P 8 "Percentage of light in the LED #2 when On" 1 [V 0 100 ""]; P 9 "Percentage of light in the LED #3 when On" 1 [V 0 100 ""]; P 10 "Percentage of light in the LED #4 when On" 1 [V 0 100 ""]; P 11 "Percentage of light in the LED #1 when Off" 1 [V 0 100 ""]; P 12 "Percentage of light in the LED #2 when Off" 1 [V 0 100 ""]; P 13 "Percentage of light in the LED #3 when Off" 1 [V 0 100 ""]; P 14 "Percentage of light in the LED #4 when Off" 1 [V 0 100 ""]; P 15 "Relay mode" 1 [V 0 0 "Relay is disabled."; V 1 1 "Relay is controlled by button #1"; V 2 2 "Relay is controlled by button #2"; V 3 3 "Relay is controlled by button #3"; V 4 4 "Relay is controlled by button #4"; V 5 5 "Relay is activated for one second, button #1"; V 6 6 "Relay is activated for half a second, button #2 "; V 7 7 "Relay is activated for half a second, button #3 "; V 8 8 "Relay is activated for half a second, button #4"; V 9 9 "Relay follows the state of button #1"; V 10 10 "Relay follows the state of button #2"; V 11 11 "Relay follows the state of button #3"; V 12 12 "Relay follows the state of button #4"; V 13 13 "Relay is only controlled by commands sent to the root device"]; P 16 "Indicator mode." 1 [V 0 0 "Indicator Set level used to control the LED."; V 1 1 "Indicator Set level values and internal LED activations."]; P 17 "Scene notification offset." 1 [V 0 0 "Scene notifications are turned off."; V 1 1 "Send scene value for button #"]; P 18 "Disable House Cleaning." 1 [V 0 0 "House Cleaning Mode is enabled"; V 1 1 " 1 House Cleaning Mode is disabled."]; P 19 "Multilevel Switch (button #1) Disabled/Enabled" 4 [V 0 0 "Disabled"; V 1 1 "Enabled"]; P 19 "Multilevel Switch - Upper switch value" 4 [V 0 255 ""]; P 19 "Multilevel Switch - Lower switch value" 4 [V 0 99 ""]; P 20 "Multilevel Switch (button #2) Disabled/Enabled" 4 [V 0 0 "Disabled"; V 1 1 "Enabled"]; P 20 "Multilevel Switch - Upper switch value" 4 [V 0 255 ""]; P 20 "Multilevel Switch - Lower switch value" 4 [V 0 99 ""]; P 21 "Multilevel Switch (button #3) Disabled/Enabled" 4 [V 0 0 "Disabled"; V 1 1 "Enabled"]; P 21 "Multilevel Switch - Upper switch value" 4 [V 0 255 ""]; P 21 "Multilevel Switch - Lower switch value" 4 [V 0 99 ""]; P 22 "Multilevel Switch (button #4) Disabled/Enabled" 4 [V 0 0 "Disabled"; V 1 1 "Enabled"]; P 22 "Multilevel Switch - Upper switch value" 4 [V 0 255 ""]; P 22 "Multilevel Switch - Lower switch value" 4 [V 0 99 ""]; P 23 "Control of association groups (button #1)." 1 [V 0 0 "Association groups will not be switched."; V 1 1 "Association groups will be switched,"]; P 24 "Control of association groups (button #2)." 1 [V 0 0 "Association groups will not be switched."; V 1 1 "Association groups will be switched,"]; P 25 "Control of association groups (button #3)." 1 [V 0 0 "Association groups will not be switched."; V 1 1 "Association groups will be switched,"]; P 26 "Control of association groups (button #4)." 1 [V 0 0 "Association groups will not be switched."; V 1 1 "Association groups will be switched,"]].
Definition dpar425 : list gparam := [].
Definition dpar426 : list gparam := [P 1 "Notification Threshold" 2 [V 1 2000 ""]].
Definition dpar427 : list gparam := [].
Definition dpar428 : list gparam := [].
Definition dpar429 : list gparam := [].
Definition dpar430 : list gparam := [].
Definition dpar431 : list gparam := [].
Definition dpar432 : list gparam := [].
Definition dpar433 : list gparam := [].
Definition dpar434 : list gparam := [].
Definition dpar435 : list gparam := [].
Definition dpar436 : list gparam := [].
Definition dpar437 : list gparam := [].
Definition dpar438 : list gparam := [P 1 "Saving state before power failure" 1 [V 0 0 "Disabled"; V 1 1 "Enabled"]].
Definition dpar439 : list gparam := [P 0 "Switching/dimming/shutters" 1 [V 0 127 ""]; P 4 "Switching single-surface" 1 [V 0 127 ""]; P 44 "Doorbell function" 1 [V 0 127 ""]; P 52 "LOWER shutter as long as button is pressed" 1 [V 0 127 ""]; P 54 "Move shutter single-surface" 1 [V 0 127 ""]; P 55 "RAISE shutter as long as button is pressed" 1 [V 0 127 ""]].
Definition dpar440 : list gparam := [].
Definition dpar441 : list gparam := [].
Definition dpar442 : list gparam := [P 176 "Staircase  timer byte 1" 1 [V 0 127 ""]; P 177 "Staircase  timer byte 2" 1 [V 0 127 ""]; P 183 "Additional limit duration (after brief interruption)" 1 [V 0 127 ""]].
Definition dpar443 : list gparam := [P 196 " Dimmer speed" 1 [V 0 240 ""]].
Definition dpar444 : list gparam := [P 4 "Switching single-surface" 1 [V 0 127 ""]; P 44 "Doorbell function" 1 [V 0 127 ""]; P 52 "LOWER shutter as long as button is pressed" 1 [V 0 127 ""]; P 54 "Move shutter single-surface" 1 [V 0 127 ""]; P 55 "RAISE shutter as long as button is pressed" 1 [V 0 127 ""]].
Definition dpar445 : list gparam := [].
Definition dpar446 : list gparam := [P 0 "Switching/dimming/shutters" 1 [V 0 127 ""]; P 4 "Switching single-surface" 1 [V 0 127 ""]; P 176 "Break (motor protection)" 1 [V 0 255 ""]; P 177 "Travel time UP, Byte 1" 1 [V 0 255 ""]; P 178 "Travel time UP, Byte 2" 1 [V 0 255 ""]; P 179 "Travel time DOWN, Byte 1" 1 [V 0 255 ""]; P 180 "Travel time DOWN, Byte 2" 1 [V 0 255 ""]].
Definition dpar447 : list gparam := [P 1 "Send Battery Report with Notification Report" 1 [V 0 0 "Do not send battery report"; V 1 1 "Send Battery Report"]].
Definition dpar448 : list gparam := [P 1 "Default State" 1 [V 0 0 "OFF"; V 1 1 "ON"; V 2 2 "Status before Power Failure"]; P 2 "Power Failure" 1 [V 0 0 "Power Failure detection disable"; V 1 1 "Power Failure enable (report to Lifeline only)"; V 2 2 "Enable group 4"; V 4 4 "Enable group 5"; V 8 8 "Enable group 6"; V 16 16 "Enable group 7"; V 32 32 "Enable group 8"]; P 3 "Follow State" 1 [V 0 0 "Disable group 2 & 3"; V 1 1 "Enable group 2"; V 2 2 "Enable group 3"; V 3 3 "Enable group 2 & 3"]; P 4 "Always On" 1 [V 0 0 "Always ON disabled"; V 1 1 "Always ON enabled"]].
Definition dpar449 : list gparam := [P 1 "Buttons 1 and 3 profile" 1 [V 0 0 "Scene"; V 1 1 "Mono"; V 2 2 "Duo"]; P 2 "Buttons 2 and 4 profile" 1 [V 0 0 "Scene"; V 1 1 "Mono"; V 2 2 "Duo"]; P 3 "Scene Type" 1 [V 0 0 "Central Scene"; V 1 1 "Scene Activation"]; P 4 "Button 1 configuration" 1 [V 0 0 "Control group 2"; V 1 1 "All switches ON"; V 2 2 "All switches OFF"]; P 5 "Button 2 configuration" 1 [V 0 0 "Control group 3"; V 1 1 "All switches ON"; V 2 2 "All switches OFF"]; P 6 "Button 3 configuration" 1 [V 0 0 "Control group 4"; V 1 1 "All switches ON"; V 2 2 "All switches OFF"]; P 7 "Button 4 configuration" 1 [V 0 0 "Control group 5"; V 1 1 "All switches ON"; V 2 2 "All switches OFF"]; P 8 "LED Management" 1 [V 0 0 "No LED"; V 1 1 "Flash Blue after button press"; V 2 2 "Blink to confirm command"; V 3 3 "Flash Blue after button press and blink to confirm command"]].
Definition dpar450 : list gparam := [P 1 "Buttons 1 and 3 profile" 1 [V 0 0 "Scene"; V 1 1 "Mono"; V 2 2 "Duo"]; P 2 "Buttons 2 and 4 profile" 1 [V 0 0 "Scene"; V 1 1 "Mono"; V 2 2 "Duo"]; P 3 "Scene Type" 1 [V 0 0 "Central Scene"; V 1 1 "Scene Activation"]; P 4 "Button 1 configuration" 1 [V 0 0 "Control group 2"; V 1 1 "All switches ON"; V 2 2 "All switches OFF"]; P 5 "Button 2 configuration" 1 [V 0 0 "Control group 3"; V 1 1 "All switches ON"; V 2 2 "All switches OFF"]; P 6 "Button 3 configuration" 1 [V 0 0 "Control group 4"; V 1 1 "All switches ON"; V 2 2 "All switches OFF"]; P 7 "Button 4 configuration" 1 [V 0 0 "Control group 5"; V 1 1 "All switches ON"; V 2 2 "All switches OFF"]; P 8 "LED Management" 1 [V 0 0 "No LED"; V 1 1 "Flash Blue after button press"; V 2 2 "Blink to confirm command"; V 3 3 "Flash Blue after button press and blink to confirm command"]].
Definition dpar451 : list gparam := [P 1 "Default State" 1 [V 0 0 "OFF"; V 1 1 "ON"; V 2 2 "Status before power outage"]; P 3 "Follow State" 1 [V 0 0 "Group 2 & Group 3 disable"; V 1 1 "Group 2 enable"; V 2 2 "Group 3 enable"; V 3 3 "Group 2 & Group 3 enable"]; P 4 "Always On" 1 [V 0 0 "Always ON disable"; V 1 1 "Always ON enable"]; P 21 "Power Auto-Sending Report" 1 [V 0 0 "Power Auto-Polling Report Disable"; V 10 10 "Power Auto-Polling Report Enable if 10%"; V 20 20 "Power Auto-Polling Report Enable if 20 %"; V 30 30 "Power Auto-Polling Report Enable if 30 %"; V 40 40 "Power Auto-Polling Report Enable if 40 %"; V 50 50 "Power Auto-Polling Report Enable if 50 %"; V 60 60 "Power Auto-Polling Report Enable if 60 %"; V 70 70 "Power Auto-Polling Report Enable if 70 %"; V 80 80 "Power Auto-Polling Report Enable if 80 %"; V 90 90 "Power Auto-Polling Report Enable if 90 %"; V 100 100 "Power Auto-Polling Report Enable if 100%"]; P 22 "Overload Report" 2 [V 0 0 "Overload Report Disable (Not Recommended)"; V 50 50 "Overload Report enable with a upper limit of 50 W"; V 100 100 "Overload Report enable with a upper limit of 100 W"; V 150 150 "Overload Report enable with a upper limit of 150 W"; V 200 200 "Overload Report enable with a upper limit of 200 W"; V 250 250 "Overload Report enable with a upper limit of 250 W"; V 500 500 "Overload Report enable with a upper limit of 500 W"; V 1000 1000 "Overload Report enable with a upper limit of 1000 W"; V 1500 1500 "Overload Report enable with a upper limit of 1500 W"; V 2000 2000 "Overload Report enable with a upper limit of 2000 W"]; P 23 "Energy Auto-Sending Report" 2 [V 0 0 "Energy Auto-Polling Report Disable"; V 1000 1000 "Energy Auto-Polling Report enable if 1000 Wh variation"; V 2000 2000 "Energy Auto-Polling Report enable if 2000 Wh variation"; V 3000 3000 "Energy Auto-Polling Report enable if 3000 Wh variation"; V 4000 4000 "Energy Auto-Polling Report enable if 4000 Wh variation"; V 5000 5000 "Energy Auto-Polling Report enable if 5000 Wh variation"; V 10000 10000 "Energy Auto-Polling Report enable if 10.000 Wh variation"; V 20000 20000 "Energy Auto-Polling Report enable if 20.000 Wh variation"; V 30000 30000 "Energy Auto-Polling Report enable if 30.000 Wh variation"; V 40000 40000 "Energy Auto-Polling Report enable if 40.000 Wh variation"; V 50000 50000 "Energy Auto-Polling Report enable if 50.000 Wh variation"; V 60000 60000 "Energy Auto-Polling Report enable if 60.000 Wh variation"; V 65535 65535 "Energy Auto-Polling Report enable if 65.535 Wh variation"]; P 24 "Metering Heartbeat" 2 [V 0 0 "Metering Pulse disable"; V 3600 3600 "Metering Pulse enable and send report every hour"; V 21600 21600 "Metering Pulse enable and send report every 6 hours"; V 43200 43200 "Metering Pulse enable and send report every 12 hours"]; P 25 "Power High Threshold" 2 [V 0 0 "Power High Threshold disable"; V 10 10 "Power High Threshold enable with the value from 10 W"; V 20 20 "Power High Threshold enable with the value from 20 W"; V 30 30 "Power High Threshold enable with the value from 30 W"; V 40 40 "Power High Threshold enable with the value from 40 W"; V 50 50 "Power High Threshold enable with the value from 50 W"; V 100 100 "Power High Threshold enable with the value from 100 W"; V 200 200 "Power High Threshold enable with the value from 200 W"; V 300 300 "Power High Threshold enable with the value from 300 W"; V 400 400 "Power High Threshold enable with the value from 400 W"; V 500 500 "Power High Threshold enable with the value from 500 W"; V 1000 1000 "Power High Threshold enable with the value from 1000 W"; V 1500 1500 "Power High Threshold enable with the value from 1500 W"; V 2000 2000 "Power High Threshold enable with the value from 2000 W"]; P 26 "Power Low Threshold" 2 [V 0 0 "Power Low Threshold disable"; V 5 5 "Power Low Threshold enable with the value from 5 W"; V 10 10 "Power Low Threshold enable with the value from 10 W"; V 20 20 "Power Low Threshold enable with the value from 20 W"; V 30 30 "Power Low Threshold enable with the value from 30 W"; V 40 40 "Power Low Threshold enable with the value from 40 W"; V 50 50 "Power Low Threshold enable with the value from 50 W"; V 100 100 "Power Low Threshold enable with the value from 100 W"; V 200 200 "Power Low Threshold enable with the value from 200 W"; V 300 300 "Power Low Threshold enable with the value from 300 W"; V 400 400 "Power Low Threshold enable with the value from 400 W"; V 500 500 "Power Low Threshold enable with the value from 500 W"; V 1000 1000 "Power Low Threshold enable with the value from 1000 W"; V 1500 1500 "Power Low Threshold enable with the value from 1500 W"; V 2000 2000 "Power Low Threshold enable with the value from 2000 W"]; P 27 "Power Threshold Action" 1 [V 0 0 "Power Threshold Action is disable."; V 1 1 "Power High Group 4 OFF"; V 3 3 "Power High Group 4 ON"; V 4 4 "Power Low Group 5 OFF"; V 5 5 "Power High Group 4 OFF & Power Low Group 5 OFF"; V 7 7 "Power High Group 4 ON & Power Low Group 5 OFF"; V 12 12 "Power High Group 5 ON"; V 13 13 "Power High Group 4 OFF & Power Low Gourp 5 ON"; V 15 15 "Power High Group 4 ON & Power Low Group 5 ON"]].
Definition dpar452 : list gparam := [P 1 "Buttons 1 and 3 profile" 1 [V 0 0 "Scene"; V 1 1 "Mono"; V 2 2 "Duo"]; P 2 "Buttons 2 and 4 profile" 1 [V 0 0 "Scene"; V 1 1 "Mono"; V 2 2 "Duo"]; P 3 "Scene Type" 1 [V 0 0 "Central Scene"; V 1 1 "Scene Activation"]; P 4 "Button 1 configuration" 1 [V 0 0 "Control group 2"; V 1 1 "All switches ON"; V 2 2 "All switches OFF"]; P 5 "Button 2 configuration" 1 [V 0 0 "Control group 3"; V 1 1 "All switches ON"; V 2 2 "All switches OFF"]; P 6 "Button 3 configuration" 1 [V 0 0 "Control group 4"; V 1 1 "All switches ON"; V 2 2 "All switches OFF"]; P 7 "Button 4 configuration" 1 [V 0 0 "Control group 5"; V 1 1 "All switches ON"; V 2 2 "All switches OFF"]; P 8 "LED Management" 1 [V 0 0 "No LED"; V 1 1 "Flash Blue after button press"; V 2 2 "Blink to confirm command"; V 3 3 "Flash Blue after button press and blink to confirm command"]].
Definition dpar453 : list gparam := [P 1 "Pulse factor" 4 [V 0 65535 ""]; P 2 "Sensor type" 1 [V 1 1 "magnetic contact"; V 2 2 "silver spot meter"]; P 3 "IR Listen period" 1 [V 0 127 ""]; P 4 "IR Pulse Width" 1 [V 0 127 ""]; P 5 "Poll / Wake up frequency" 1 [V 1 50 ""]; P 6 "Pulse Threshold Low" 1 [V 0 128 ""]; P 7 "Pulse Threshold High" 1 [V 0 128 ""]; P 8 "Wakeup Interval" 1 [V 0 255 ""]; P 9 "Pulse count" 4 [V 1 50 ""]; P 10 "Keep alive period" 2 [V 0 32767 ""]; P 11 "Real-time mode" 2 [V 0 32767 ""]; P 13 "Off" 1 [V 0 1 ""]].
Definition dpar454 : list gparam := [P 1 "Pulse factor" 2 [V 0 65535 ""]; P 2 "Sensor type" 1 [V 1 1 "Pulse meter"; V 2 2 "Mechanical meter"]; P 3 "IR Listen period" 1 [V 0 255 ""]; P 4 "IR Pulse Width" 1 [V 0 255 ""]; P 5 "Poll / Wake up frequency" 1 [V 1 50 ""]; P 6 "Pulse Threshold Low" 1 [V 0 143 ""]; P 7 "Pulse Threshold High" 1 [V 0 143 ""]; P 8 "Wakeup Interval" 2 [V 0 65535 ""]; P 9 "Pulse count" 4 [V 1 (-1) ""]; P 10 "Keep alive period" 2 [V 0 65535 ""]; P 11 "Real-time mode" 2 [V 0 65535 ""]; P 12 "Serial number" 4 [V 0 65535 ""]; P 13 "Debug mode" 1 [V 0 0 "Off"; V 1 1 "LED blinks at pulse counting"]; P 15 "Calibration status" 4 [V 0 65535 ""]].
Definition dpar455 : list gparam := [P 1 "Pulse factor" 2 [V 0 65535 ""]; P 2 "Sensor type" 1 [V 1 1 "Pulse meter"; V 2 2 "Mechanical meter"]; P 3 "IR Listen period" 1 [V 0 255 ""]; P 4 "IR Pulse Width" 1 [V 0 255 ""]; P 5 "Poll / Wake up frequency" 1 [V 1 50 ""]; P 6 "Pulse Threshold Low" 1 [V 0 143 ""]; P 7 "Pulse Threshold High" 1 [V 0 143 ""]; P 8 "Wakeup Interval" 2 [V 0 65535 ""]; P 9 "Pulse count" 4 [V 1 (-1) ""]; P 10 "Keep alive period" 2 [V 0 65535 ""]; P 11 "Real-time mode" 2 [V 0 65535 ""]; P 12 "Serial number" 4 [V 0 65535 ""]; P 13 "Debug mode" 1 [V 0 0 "Off"; V 1 1 "LED blinks at pulse counting"]; P 15 "Calibration status" 4 [V 0 65535 ""]].
Definition dpar456 : list gparam := [P 1 "Power meter report period" 2 [V 1 32767 ""]; P 2 "Energy meter report period" 2 [V 1 32767 ""]; P 3 "Selected default endpoint" 1 [V 1 3 ""]].
Definition dpar457 : list gparam := [P 1 "Mode of  Switch Off  function" 1 [V 0 0 "Disabled"; V 1 1 "Enabled"]; P 2 "LED indication mode" 1 [V 1 1 "Show current switch state"; V 2 2 "Night mode (opposite)"]; P 3 "Auto off timer" 2 [V 0 32767 ""]; P 4 "RF off command mode" 1 [V 0 0 "Switch off"; V 1 1 "Ignore"; V 2 2 "Toggle Switch"; V 3 3 "Switch On"]].
Definition dpar458 : list gparam := [P 1 "Watt Meter Report Period" 2 [V 1 32767 ""]; P 2 "KWH Meter Report Period" 2 [V 1 32767 ""]; P 3 "Threshold of current for Load caution" 2 [V 10 1100 ""]; P 4 "Threshold of KWh for Load caution" 2 [V 10 10000 ""]; P 5 "Restore switch state mode" 1 [V 0 0 "Switch off"; V 1 1 "Last switch state"; V 2 2 "Switch on"]; P 6 "Manual On/Off mode" 1 [V 0 0 "Disable manual On/Off"; V 1 1 "Enable manual On/Off"]; P 7 "LED indication mode" 1 [V 1 1 "Show switch state"; V 2 2 " Show night mode"; V 2 2 "One flash mode"]; P 8 "Auto off timer" 2 [V 0 32767 ""]; P 9 "RF off command mode" 1 [V 0 0 "Switch off"; V 1 1 "Ignore"; V 2 2 "Switch toggle"; V 3 3 "Switch on"]].
Definition dpar459 : list gparam := [P 1 "W meter report period" 2 [V 0 65535 ""]; P 2 "kWh meter report period" 2 [V 0 65535 ""]; P 3 "Selected endpoint" 1 [V 1 1 "Relay 1"; V 2 2 "Relay 2"; V 3 3 "Relay 1 + 2"]; P 4 "Switch mode" 1 [V 1 1 "Edge mode"; V 2 2 "Pulse mode"; V 3 3 "Edge-Toggle mode"]; P 5 "Threshold of Watt for Load Caution" 2 [V 0 65535 ""]; P 6 "Threshold of kWh for Load Caution" 2 [V 0 65535 ""]; P 7 "Restore switch state mode" 1 [V 0 0 "Switch Off"; V 1 1 "Last State"; V 2 2 "Switch On"]; P 8 "Auto Off Timer" 2 [V 0 65535 ""]; P 9 "RF off command mode" 1 [V 0 0 "Switch Off"; V 1 1 "Ignore"; V 2 2 "Switch Toggle"; V 3 3 "Switch On"]; P 10 "Endpoint 3" 1 [V 1 1 "Exists"; V 2 2 "Doesn't Exist"]].
Definition dpar460 : list gparam := [P 1 "W meter report period" 2 [V 0 65535 ""]; P 2 "kWh meter report period" 2 [V 0 65535 ""]; P 3 "Selected endpoint" 1 [V 1 1 "Relay 1"; V 2 2 "Relay 2"; V 3 3 "Relay 1 + 2"]; P 4 "Switch mode" 1 [V 1 1 "Edge mode"; V 2 2 "Pulse mode"; V 3 3 "Edge-Toggle mode"]; P 5 "Threshold of Watt for Load Caution" 2 [V 0 65535 ""]; P 6 "Threshold of kWh for Load Caution" 2 [V 0 65535 ""]; P 7 "Restore switch state mode" 1 [V 0 0 "Switch Off"; V 1 1 "Last State"; V 2 2 "Switch On"]; P 8 "Auto Off Timer" 2 [V 0 65535 ""]; P 9 "RF off command mode" 1 [V 0 0 "Switch Off"; V 1 1 "Ignore"; V 2 2 "Switch Toggle"; V 3 3 "Switch On"]; P 10 "Endpoint 3" 1 [V 1 1 "Exists"; V 2 2 "Doesn't Exist"]].
Definition dpar461 : list gparam := [P 1 "W meter report period" 2 [V 0 65535 ""]; P 2 "kWh meter report period" 2 [V 0 65535 ""]; P 3 "Selected endpoint" 1 [V 1 1 "Relay 1"; V 2 2 "Relay 2"; V 3 3 "Relay 1 + 2"]; P 4 "Switch mode" 1 [V 1 1 "Edge mode"; V 2 2 "Pulse mode"; V 3 3 "Edge-Toggle mode"]; P 5 "Threshold of Watt for Load Caution" 2 [V 0 65535 ""]; P 6 "Threshold of kWh for Load Caution" 2 [V 0 65535 ""]; P 7 "Restore switch state mode" 1 [V 0 0 "Switch Off"; V 1 1 "Last State"; V 2 2 "Switch On"]; P 8 "Auto Off Timer" 2 [V 0 65535 ""]; P 9 "RF off command mode" 1 [V 0 0 "Switch Off"; V 1 1 "Ignore"; V 2 2 "Switch Toggle"; V 3 3 "Switch On"]; P 10 "Endpoint 3" 1 [V 1 1 "Exists"; V 2 2 "Doesn't Exist"]].
Definition dpar462 : list gparam := [P 1 "Selected endpoint" 1 [V 1 1 "Relay 1 + 2"; V 2 2 "Relay 1"; V 3 3 "Relay 2"]; P 2 "Switch mode" 1 [V 1 1 "Edge mode"; V 2 2 "Pulse mode"; V 3 3 "Edge-Toggle mode"]].
Definition dpar463 : list gparam := [P 1 "Selected endpoint" 1 [V 1 1 "Relay 1 + 2"; V 2 2 "Relay 1"; V 3 3 "Relay 2"]; P 2 "Switch mode" 1 [V 1 1 "Edge mode"; V 2 2 "Pulse mode"; V 3 3 "Edge-Toggle mode"]].
Definition dpar464 : list gparam := [P 1 "Watt meter report interval (5s)" 2 [V 1 32767 ""]; P 2 "KWH Meter Report Interval (10min)" 2 [V 1 32767 ""]; P 3 "Threshold for Load Caution (10mA)" 2 [V 1 1100 ""]; P 4 "Threshold of KWh for Load Caution" 2 [V 1 10000 ""]].
Definition dpar465 : list gparam := [P 1 "Watt meter report interval (5s)" 2 [V 1 32767 ""]; P 2 "KWH Meter Report Interval (10min)" 2 [V 1 32767 ""]; P 3 "Threshold for Load Caution (10mA)" 2 [V 1 1100 ""]; P 4 "Threshold of KWh for Load Caution" 2 [V 1 10000 ""]].
Definition dpar466 : list gparam := [P 1 "W meter report period" 2 [V 0 32767 ""]; P 2 "kWh meter report period" 2 [V 0 32767 ""]; P 3 "Threshold of Watt for load caution" 2 [V 10 1300 ""]; P 4 "Threshold of kWh for Load Caution" 2 [V 1 10000 ""]; P 5 "Restore switch state mode" 1 [V 0 0 "Switch Off"; V 1 1 "Last State"; V 2 2 "Switch On"]; P 6 "Mode of switch Off function" 1 [V 0 0 "SWITCH OFF commands received are ignored."; V 1 1 "SWITCH OFF commands received are honored."]; P 7 "LED indication mode" 1 [V 1 1 "The LED follows the state of the switch."; V 2 2 "LED off with load ON"; V 3 3 "One flash mode"]; P 8 "Auto Off Timer" 2 [V 0 255 ""]; P 9 "RF Off command mode" 1 [V 0 0 "Switch Off"; V 1 1 "Ignore"; V 2 2 "Switch Toggle"; V 3 3 "Switch On"]].
Definition dpar467 : list gparam := [P 1 "W meter report period" 2 [V 0 32767 ""]; P 2 "kWh meter report period" 2 [V 0 32767 ""]; P 3 "Threshold of Watt for load caution" 2 [V 10 1300 ""]; P 4 "Threshold of kWh for Load Caution" 2 [V 1 10000 ""]; P 5 "Restore switch state mode" 1 [V 0 0 "Switch Off"; V 1 1 "Last State"; V 2 2 "Switch On"]; P 6 "Mode of switch Off function" 1 [V 0 0 "SWITCH OFF commands received are ignored."; V 1 1 "SWITCH OFF commands received are honored."]; P 7 "LED indication mode" 1 [V 1 1 "The LED follows the state of the switch."; V 2 2 "LED off with load ON"; V 3 3 "One flash mode"]; P 8 "Auto Off Timer" 2 [V 0 255 ""]; P 9 "RF Off command mode" 1 [V 0 0 "Switch Off"; V 1 1 "Ignore"; V 2 2 "Switch Toggle"; V 3 3 "Switch On"]].
Definition dpar468 : list gparam := [P 1 "W meter report period" 2 [V 0 32767 ""]; P 2 "kWh meter report period" 2 [V 0 32767 ""]; P 3 "Threshold of Watt for load caution" 2 [V 10 1300 ""]; P 4 "Threshold of kWh for Load Caution" 2 [V 1 10000 ""]; P 5 "Restore switch state mode" 1 [V 0 0 "Switch Off"; V 1 1 "Last State"; V 2 2 "Switch On"]; P 6 "Mode of switch Off function" 1 [V 0 0 "SWITCH OFF commands received are ignored."; V 1 1 "SWITCH OFF commands received are honored."]; P 7 "LED indication mode" 1 [V 1 1 "The LED follows the state of the switch."; V 2 2 "LED off with load ON"; V 3 3 "One flash mode"]; P 8 "Auto Off Timer" 2 [V 0 255 ""]; P 9 "RF Off command mode" 1 [V 0 0 "Switch Off"; V 1 1 "Ignore"; V 2 2 "Switch Toggle"; V 3 3 "Switch On"]].
Definition dpar469 : list gparam := [P 1 "Basic Set OFF Level" 1 [V 1 100 ""]; P 2 "Basic Set ON Level" 1 [V 1 100 ""]; P 5 "Operation Mode" 1 [V 0 127 ""]; P 6 "Multi-Sensor Function Switch" 1 [V 0 127 ""]; P 7 "Customer Function" 1 [V 16 16 "Preset: Notification Type = Binary"]; P 10 "Auto Report Battery Time" 1 [V 0 127 ""]; P 13 "Auto Report Temperature Time" 1 [V 1 127 ""]; P 14 "Auto Report Humidity Time" 1 [V 1 127 ""]; P 15 "Auto Report Flood Time" 1 [V 1 127 ""]; P 20 "Auto Report Tick Interval" 1 [V 0 254 ""]; P 21 "Temperature Differential Report" 1 [V 0 127 ""]; P 23 "Humidity Differential Report" 1 [V 0 60 ""]].
Definition dpar470 : list gparam := [P 5 "Operation Mode" 1 [V 0 255 ""]; P 7 "Customer Function" 1 [V 0 255 ""]; P 10 "Auto Report Battery Time" 1 [V 1 127 ""]; P 13 "Auto Report Temperature Time" 1 [V 1 127 ""]; P 14 "Auto Report Humidity Time" 1 [V 1 127 ""]; P 20 "Auto Report Tick Interval" 1 [V 0 255 ""]; P 21 "Temperature Differential Report" 1 [V 1 127 ""]; P 23 "Humidity Differential Report" 1 [V 1 60 ""]].
Definition dpar471 : list gparam := [P 1 "Basic Set OFF Level" 1 [V 0 255 ""]; P 2 "Basic Set ON Level" 1 [V 0 255 ""]; P 5 "Operation Mode" 1 [V 0 0 "Flood function is enabled"; V 1 1 "Flood function is disabled"]; P 7 "Customer Function" 1 [V 0 255 ""]; P 10 "Auto Report Battery Time" 1 [V 0 127 ""]; P 15 "Auto Report Flood Time" 1 [V 0 127 ""]; P 20 "Auto Report Tick Interval" 1 [V 0 255 ""]].
Definition dpar472 : list gparam := [P 7 "Costumer  Function" 4 [V 0 65535 ""]; P 29 "Disable Alarm" 4 [V 0 0 ""]; P 31 "Alarm Duration" 4 [V 0 127 ""]].
Definition dpar473 : list gparam := [P 2 "Basic Set Level" 1 [V (-1) 100 ""]; P 3 "PIR Sensitivity" 1 [V 0 99 ""]; P 4 "Light Threshold" 1 [V 0 100 ""]; P 5 "Operation Mode" 1 [V 0 127 ""]; P 6 "Multi-Sensor Function Switch" 1 [V 0 127 ""]; P 8 "PIR Re-Detect Interval Time" 1 [V 3 127 ""]; P 9 "Turn Off Light Time" 1 [V 4 127 ""]; P 10 "Auto Report Battery Time" 1 [V 1 127 ""]; P 11 "Auto Report Door/Window State Time" 1 [V 1 127 ""]; P 12 "Auto Report Illumination Time" 1 [V 1 127 ""]; P 13 "Auto Report Temperature Time" 1 [V 1 127 ""]].
Definition dpar474 : list gparam := [P 1 "Basic Set OFF level" 1 [V 0 99 ""]; P 2 "Basic Set ON level" 1 [V 0 99 ""]; P 10 "Auto Report Battery Time" 1 [V 0 127 ""]; P 25 "Customer Function" 1 [V 0 1 ""]; P 26 "Disable Scene Holding report" 1 [V 0 0 "Disable"; V 1 1 "Enable"]].
Definition dpar475 : list gparam := [P 2 "Basic Set Level" 1 [V 0 0 "Turn light OFF"; V 255 255 "Turn light ON"]; P 3 "PIR Sensitivity" 1 [V 0 0 "Disable Motion Detection"]; P 4 "Light Threshold" 1 [V 0 0 "Disable Illumination Detection"]; P 5 "Operation Mode" 1 [V 10 10 "Preset: Celsius and LED on = Bits: 00001010 = 10"]; P 6 "Multi-Sensor Function Switch" 1 [V 0 127 ""]; P 7 "Customer Function" 1 [V 22 22 "Preset: PIR Super Sensitivity and Binary Report and Motion Off Report "]; P 8 "PIR Re-Detect Interval Time" 1 [V 1 127 ""]; P 9 "Turn Off Light Time" 1 [V 0 127 ""]; P 10 "Auto Report Battery Time" 1 [V 0 127 ""]; P 11 "Auto Report Door/Window State Time" 1 [V 0 127 ""]; P 12 "Auto Report Illumination Time" 1 [V 1 127 ""]; P 13 "Auto Report Temperature Time" 1 [V 1 127 ""]; P 20 "Auto Report Tick Interval" 1 [V 0 255 ""]; P 21 "Temperature Differential Report" 1 [V 0 127 ""]; P 22 "Illumination Differential Report" 1 [V 0 99 ""]].
Definition dpar476 : list gparam := [P 2 "Basic Set Level" 1 [V (-1) 100 ""]; P 3 "PIR Sensitivity" 1 [V 0 99 ""]; P 4 "Light Threshold" 1 [V 0 100 ""]; P 5 "Operation Mode" 1 [V 0 127 ""]; P 6 "Multi-Sensor Function Switch" 1 [V 7 7 "Customer Function"]; P 8 "PIR Re-Detect Interval Time" 1 [V 3 127 ""]; P 9 "Turn Off Light Time" 1 [V 4 127 ""]; P 10 "Auto Report Battery Time" 1 [V 1 127 ""]; P 12 "Auto Report Illumination Time" 1 [V 1 127 ""]; P 13 "Auto Report Temperature Time" 1 [V 1 127 ""]].
Definition dpar477 : list gparam := [P 2 "Basic Set Level" 1 [V (-1) 100 ""]; P 4 "Light Threshold" 1 [V 0 100 ""]; P 5 "Operation Mode" 1 [V 0 127 ""]; P 6 "Multi-Sensor Function Switch" 1 [V 0 127 ""]; P 7 "Customer Function" 1 [V 0 127 ""]; P 8 "PIR Re-Detect Interval Time" 1 [V 1 127 ""]; P 9 "Turn Off Light Time" 1 [V 0 127 ""]; P 10 "Auto Report Battery Time" 1 [V 0 127 ""]; P 11 "Auto Report Door/Window State Time" 1 [V 0 127 ""]; P 12 "Auto Report Illumination Time" 1 [V 1 127 ""]; P 13 "Auto Report Temperature Time" 1 [V 1 127 ""]; P 20 "Auto Report Tick Interval" 1 [V 0 255 ""]; P 21 "Temperature Differential Report" 1 [V 0 127 ""]; P 22 "Illumination Differential Report" 1 [V 0 99 ""]].
Definition dpar478 : list gparam := [P 1 "Direction" 1 [V 0 0 "Clockwise"; V 1 1 "The motor goes counterclockwise when latched"]; P 2 "Speed (Torque)" 1 [V 1 1 "Slowest"; V 2 2 "Slow"; V 3 3 "Normal"; V 4 4 "Fast"; V 5 5 "Fastest"]; P 3 "Mode" 1 [V 0 0 "Powersaving"; V 1 1 "Full drive"; V 2 2 "Relay mode"]; P 4 "Turn degrees" 1 [V 1 100 ""]; P 5 "Auto Latch time" 1 [V 0 60 ""]; P 6 "Sound" 1 [V 0 0 "Disable sound"; V 1 1 "Enable Sound"]; P 7 "Battery Type" 1 [V 0 0 "3,6V"; V 1 1 "3,0V"; V 2 2 "Mains power"]; P 8 "Battery alarm" 1 [V 0 100 ""]; P 9 "TurnAndGo" 1 [V 0 0 "Off"; V 1 1 "On"]; P 10 "BrakeAndGoBack	" 1 [V 0 0 "Disabled"; V 1 1 "1 second"; V 2 2 "Brake for 2 seconds"; V 3 3 "Brake for 3 seconds"; V 4 4 "Brake for 4 seconds"; V 5 5 "Brake for 5 seconds"; V 6 6 "Brake for 6 seconds"; V 7 7 "Brake for 7 seconds"; V 8 8 "Brake for 8 seconds"; V 9 9 "Brake for 9 seconds"; V 10 10 "Brake for 10 seconds"; V 11 11 "Brake for 11 seconds"; V 12 12 "Brake for 12 seconds"; V 13 13 "Brake for 13 seconds"; V 14 14 "Brake for 14 seconds"; V 15 15 "Brake for 15 seconds"]; P 11 "Async" 1 [V 0 0 "Async off"; V 1 1 "Async on"]; P 12 "ReportType" 1 [V 0 0 "Default"; V 1 1 "Advanced"; V 2 2 "No reporting"]].
Definition dpar479 : list gparam := [P 1 "Siren alarm sequence interval in seconds" 1 [V 3 129 ""]; P 2 "Siren alarm tone length" 1 [V 3 129 ""]; P 3 "Value of On-Command" 1 [V 0 99 ""]; P 4 "Value of Off-Command" 1 [V 0 99 ""]; P 5 "Status of automated meshing of smoke alarms" 1 [V 0 0 "inactive"; V 1 1 "active"]; P 6 "Status of automated meshing of battery alarms" 1 [V 0 0 "inactive"; V 1 1 "active"]].
Definition dpar480 : list gparam := [P 1 "Value of ON-Command" 1 [V 0 99 ""]; P 2 "Value of OFF-Command" 1 [V 0 99 ""]].
Definition dpar481 : list gparam := [P 1 "Siren  triggering mode" 1 [V 0 0 "Siren  triggering mode"; V 1 1 "Siren  triggering mode"; V 2 2 "Siren  triggering mode"]; P 2 "Temperature adjustments" 1 [V 0 0 "Temperature adjustments"]; P 3 "Send unsolicited  temperature report" 1 [V 0 255 ""]; P 4 "Send unsolicited  temperature report after N wake up" 2 [V 0 0 "Send unsolicited  temperature report after N wake up"]; P 5 "Switch mode " 1 [V 0 0 "Switch mode"; V 1 1 "Switch mode"; V 2 2 "Switch mode"]].
Definition dpar482 : list gparam := [P 1 "Siren  triggering mode" 1 [V 0 0 "Siren  triggering mode"; V 1 1 "Siren  triggering mode"; V 2 2 "Siren  triggering mode"]; P 2 "Temperature adjustments" 1 [V 0 0 "Temperature adjustments"]; P 3 "Send unsolicited  temperature report" 1 [V 0 255 ""]; P 4 "Send unsolicited  temperature report after N wake up" 2 [V 0 0 "Send unsolicited  temperature report after N wake up"]; P 5 "Switch mode " 1 [V 0 0 "Switch mode"; V 1 1 "Switch mode"; V 2 2 "Switch mode"]].
Definition dpar483 : list gparam := [P 1 "Wind Speed Action Threshold" 1 [V 0 30 ""]; P 2 "Twilight Action Threshold" 1 [V 0 100 ""]].
Definition dpar484 : list gparam := [P 1 "Button 1 and 3 pair mode" 1 [V 0 0 "Separately"; V 1 1 "In pair without double clicks"; V 2 2 "In pair with double clicks"]; P 2 "Button 2 and 4 pair mode" 1 [V 0 0 "Separately"; V 1 1 "In pair without double clicks"; V 2 2 "In pair with double clicks"]; P 11 "Command to control Group A" 1 [V 0 0 "Disabled"; V 1 1 "Switch On/Off and Dim (send Basic Set and Switch Multilevel)"; V 2 2 "Switch On/Off only (send Basic Set)"; V 3 3 "Switch all"; V 4 4 "Send Scenes"; V 5 5 "Send Preconfigured Scenes"; V 6 6 "Control devices in proximity"; V 7 7 "Control door lock"; V 8 8 "Central scene to gateway (default)"]; P 12 "Command to control Group B" 1 [V 0 0 "Disabled"; V 1 1 "Switch On/Off and Dim (send Basic Set and Switch Multilevel)"; V 2 2 "Switch On/Off only (send Basic Set)"; V 3 3 "Switch all"; V 4 4 "Send Scenes"; V 5 5 "Send Preconfigured Scenes"; V 6 6 "Control devices in proximity"; V 7 7 "Control door lock"; V 8 8 "Central scene to gateway (default)"]; P 13 "Command to control Group C" 1 [V 0 0 "Disabled"; V 1 1 "Switch On/Off and Dim (send Basic Set and Switch Multilevel)"; V 2 2 "Switch On/Off only (send Basic Set)"; V 3 3 "Switch all"; V 4 4 "Send Scenes"; V 5 5 "Send Preconfigured Scenes"; V 6 6 "Control devices in proximity"; V 7 7 "Control door lock"; V 8 8 "Central scene to gateway (default)"]; P 14 "Command to control Group D" 1 [V 0 0 "Disabled"; V 1 1 "Switch On/Off and Dim (send Basic Set and Switch Multilevel)"; V 2 2 "Switch On/Off only (send Basic Set)"; V 3 3 "Switch all"; V 4 4 "Send Scenes"; V 5 5 "Send Preconfigured Scenes"; V 6 6 "Control devices in proximity"; V 7 7 "Control door lock"; V 8 8 "Central scene to gateway (default)"]; P 21 "Send the following Switch All commands" 1 [V 1 1 "NO (Normal Open)"; V 2 2 "NC (Normal Close)"; V 255 255 "Switch all on and off"]; P 22 "Invert buttons" 1 [V 0 0 "No"; V 1 1 "Yes"]; P 25 "Blocks wake up even when Wake Up Interval is set" 1 [V 0 0 "Wake up is blocked (default)"; V 1 1 "Wake up is possible if configured accordingly"]; P 30 "Send unsolicited Battery Report on Wake Up" 1 [V 0 0 "No"; V 1 1 "To same node as wake up notification"; V 2 2 "Broadcast to neighbours"]].
Definition dpar485 : list gparam := [P 1 "Button 1 and 3 pair mode" 1 [V 0 0 "Separately"; V 1 1 "In pair without double clicks (Default)"; V 2 2 "In pair with double clicks"]; P 2 "Button 2 and 4 pair mode" 1 [V 0 0 "Separately"; V 1 1 "In pair without double clicks (Default)"; V 2 2 "In pair with double clicks"]; P 11 "Command to control Group A" 1 [V 0 0 "Disable"; V 1 1 "Switch on/off and Dim (send Basic Set and Switch
					Multilevel)
		"; V 2 2 "Switch on/off only (send Basic Set)"; V 3 3 "Switch all"; V 4 4 "Send scenes"; V 5 5 "Send preconfigured scenes"; V 6 6 "Control devices in proximity"; V 7 7 "Control door lock"; V 8 8 "Central scene to gateway (default)"]; P 12 "Command to control Group B" 1 [V 0 0 "Disable"; V 1 1 "Switch on/off and Dim (send Basic Set and Switch
					Multilevel)
		"; V 2 2 "Switch on/off only (send Basic Set)"; V 3 3 "Switch all"; V 4 4 "Send scenes"; V 5 5 "Send preconfigured scenes"; V 6 6 "Control devices in proximity"; V 7 7 "Control door lock"; V 8 8 "Central scene to gateway (default)"]; P 13 "Command to control Group C" 1 [V 0 0 "Disable"; V 1 1 "Switch on/off and Dim (send Basic Set and Switch
					Multilevel)
		"; V 2 2 "Switch on/off only (send Basic Set)"; V 3 3 "Switch all"; V 4 4 "Send scenes"; V 5 5 "Send preconfigured scenes"; V 6 6 "Control devices in proximity"; V 7 7 "Control door lock"; V 8 8 "Central scene to gateway (default)"]; P 14 "Command to control Group D" 1 [V 0 0 "Disable"; V 1 1 "Switch on/off and Dim (send Basic Set and Switch
					Multilevel)
		"; V 2 2 "Switch on/off only (send Basic Set)"; V 3 3 "Switch all"; V 4 4 "Send scenes"; V 5 5 "Send preconfigured scenes"; V 6 6 "Control devices in proximity"; V 7 7 "Control door lock"; V 8 8 "Central scene to gateway (default)"]; P 21 "Send the following switch all commands" 1 [V 1 1 "Switch off only (default)"; V 2 2 "Switch on only"; V 255 255 "Switch all on and off"]; P 22 "Invert buttons" 1 [V 0 0 "No (default)"; V 1 1 "Yes"]; P 25 "Block wake up even when Wake Up Interval is set" 1 [V 0 0 "Wake up is blocked (default)"; V 1 1 "Wake up is possible if configured accordingly
				"]; P 30 "end unsolicited battery report on Wake Up" 1 [V 0 0 "No"; V 1 1 "To same node as Wake Up Notification (default)
				"; V 2 2 "Broadcast to neighbors"]].
Definition dpar486 : list gparam := [P 1 "Siren alarm sequence interval" 1 [V 3 129 ""]; P 2 "Siren alarm tone length" 1 [V 1 99 ""]; P 3 "Value of On-Command" 1 [V 0 99 ""]; P 4 "Value of Off-Command" 1 [V 0 99 ""]].
Definition dpar487 : list gparam := [].
Definition dpar488 : list gparam := [P 1 "LED indication mode" 1 [V 0 0 "Disabled"; V 1 1 "Show switch state (default)"; V 2 2 "Operated by Indicator Command Class"]; P 2 "Automatically switch off after x seconds." 1 [V 0 255 ""]; P 3 "What to do on RF off command." 1 [V 0 0 "Switch off (default)"; V 1 1 "Ignore"; V 2 2 "Switch on"; V 3 3 "Switch on if load is off, else switch off"]; P 5 "Restore switch state after power cycle." 1 [V 0 0 "No, turn off"; V 1 1 "Yes, default"]; P 20 "Specify the consumption of the load in watts" 2 [V 0 3500 ""]; P 21 "LED Off color" 1 [V 0 0 "Off"; V 1 1 "Red"; V 2 2 "Green"; V 3 3 "Blue"; V 4 4 "Yellow"]; P 22 "LED On color." 1 [V 0 0 "Off"; V 1 1 "Red"; V 2 2 "Green"; V 3 3 "Blue"; V 4 4 "Yellow"]].
Definition dpar489 : list gparam := [P 1 "Set LED indication mode" 1 [V 0 0 "Disabled"; V 1 1 "On when switch on"; V 2 2 "On when switch off"; V 3 3 "Operated by command"]; P 2 "Automatic switch off time" 2 [V 0 65535 ""]; P 3 "RF Off command" 1 [V 0 0 "Switch OFF"; V 1 1 "Ignore"; V 2 2 "Switch ON"; V 3 3 "Switch on if load is off else switch off"]; P 4 "Ignore start level" 1 [V 0 0 "No"; V 1 1 "Yes"]; P 5 "Speed for fast dimming" 1 [V 0 255 ""]; P 6 "Speed for slow dimming" 1 [V 0 255 ""]; P 7 "Behavior when ON received" 1 [V 0 0 "Set to last dim level"; V 1 1 "If on already, set to maximum"; V 2 2 "Always maximum dim level"]; P 8 "Baby dimming time" 1 [V 0 99 ""]; P 9 "Baby target level" 1 [V 0 100 ""]; P 10 "Baby target level" 1 [V 0 100 ""]; P 17 "Limit minimum light level" 1 [V 1 95 ""]; P 18 "Limit maximum light level" 1 [V 0 99 ""]; P 19 "Dim Level on 'Switch On'" 1 [V 0 99 ""]; P 51 "Pause before pulse" 1 [V 5 60 ""]; P 52 "Pause after pulse" 1 [V 5 60 ""]; P 53 "Pulse width" 1 [V 3 20 ""]; P 54 "Pulse type" 1 [V 0 0 "Long"; V 1 1 "Short"]].
Definition dpar490 : list gparam := [P 1 "Set LED indication mode" 1 [V 0 0 "Disabled"; V 1 1 "On when switch on"; V 2 2 "On when switch off"; V 3 3 "Operated by command"]; P 2 "Automatic switch off time" 2 [V 0 65535 ""]; P 3 "RF Off command" 1 [V 0 0 "Switch OFF"; V 1 1 "Ignore"; V 2 2 "Switch ON"; V 3 3 "Switch on if load is off else switch off"]; P 5 "Restore switch state after power cycle" 1 [V 0 0 "No - turn OFF"; V 1 1 "Yes"]].
Definition dpar491 : list gparam := [P 1 "Watt Meter Report Period" 2 [V 99999 99999 "TEST"]; P 2 "KWH Meter Report Period" 2 [V 0 65535 ""]; P 4 "Threshold of KWh for Load caution " 2 [V 0 65535 ""]; P 5 "Ignore start level" 1 [V 0 0 ""; V 1 1 "Last Switch State (Default)"; V 2 2 "Switch On"]; P 11 "Ignore start level" 1 [V 0 0 "Disabled"; V 1 1 "Enabled (Default)"]].
Definition dpar492 : list gparam := [].
Definition dpar493 : list gparam := [P 0 "Gas Metering" 1 [V 0 0 "disable gas metering"; V 1 1 "enable gas metering"]; P 1 "Gas Meter resolution" 2 [V 0 0 ""]; P 2 "Electricity metering" 1 [V 0 0 "disable electricity metering"; V 1 1 "enable electricity metering"]; P 3 "Electricity meter resolution" 2 [V 0 0 ""]].
Definition dpar494 : list gparam := [].
Definition dpar495 : list gparam := [].
Definition dpar496 : list gparam := [P 1 "Input 1 switch type" 1 [V 0 0 "mono-stable switch type (push button)"; V 1 1 "bi-stable switch type"]; P 2 "Input 2 contact type" 1 [V 0 0 "NO (normaly open) input type"; V 1 1 " NC (normaly close) input type"]; P 3 "Input 3 contact type" 1 [V 0 0 "NO (normaly open) input type"; V 1 1 " NC (normaly close) input type"]; P 10 "Activate / deactivate functions ALL ON/ALL OFF" 1 [V 0 0 "ALL ON is not active ALL OFF is not active"; V 1 1 "ALL ON is not active ALL OFF active"; V 2 2 "ALL ON active ALL OFF is not active"; V 255 255 "ALL ON active, ALL OFF active"]; P 11 "Automatic turning off relay after set time" 2 [V 0 65535 ""]; P 30 "Saving the state of the relay after a power failure" 1 [V 0 0 "Flush 1relay module saves its state before power failure (it returns t"; V 1 1 "Flush 1relay module does not save the state after a power failure, it "]; P 40 "Power reporting in Watts on power change" 1 [V 0 255 ""]; P 42 "Power reporting in Watts on power change" 2 [V 0 65535 ""]].
Definition dpar497 : list gparam := [P 1 "Input 1 switch type" 1 [V 0 0 "mono-stable switch type (push button)"; V 1 1 "bi-stable switch type"]; P 2 "Input 2 contact type" 1 [V 0 0 "NO (normaly open) input type"; V 1 1 "NC (normaly close) input type"]; P 3 "Input 3 contact type" 1 [V 0 0 "NO (normaly open) input type"; V 1 1 "NC (normaly close) input type"]; P 10 "Activate / deactivate functions ALL ON/ALL OFF" 1 [V 0 0 "ALL ON is not active ALL OFF is not active"; V 1 1 "ALL ON is not active ALL OFF active"; V 2 2 "ALL ON active ALL OFF is not active"; V 255 255 "ALL ON active, ALL OFF active"]; P 11 "Automatic turning off relay after set time" 2 [V 0 65535 ""]; P 12 "Automatic turning on relay after set time" 2 [V 0 65535 ""]; P 15 "Automatic turning off / on seconds or milliseconds selection" 1 [V 0 0 "Seconds selected"; V 1 1 "Milliseconds selected"]; P 30 "Saving the state of the relay after a power failure" 1 [V 0 0 "Flush 1relay module saves its state before power failure (it returns t"; V 1 1 "Flush 1relay module does not save the state after a power failure, it "]; P 40 "Power reporting in Watts on power change" 1 [V 0 255 ""]; P 42 "Power reporting in Watts on power change" 2 [V 0 65535 ""]; P 63 "Output Switch selection" 1 [V 0 0 "When system is turned off the output is 0V (NC)."; V 1 1 "When system is turned off the output is 230V or 24V (NO)."]; P 100 "Enable / Disable Endpoints I2 or select Notification Type and Event" 1 [V 0 0 "Endpoint, I2 disabled"; V 1 1 "Home Security; Motion Detection, unknown loc."; V 2 2 "Carbon Monoxide; Carbon Monoxide detected, unknown location."; V 3 3 "Carbon Dioxide; Carbon Dioxide detected, unknown location."; V 4 4 "Water Alarm; Water Leak detected, unknown lo.."; V 5 5 "Heat Alarm; Overheat detected, unknown loc."; V 6 6 "Smoke Alarm; Smoke detected, unknown loc."; V 9 9 "Sensor binary."]; P 101 "Enable / Disable Endpoints I3 or select Notification Type and Event" 1 [V 0 0 "Endpoint, I3 disabled"; V 1 1 "Home Security; Motion Detection, unknown loc."; V 2 2 "Carbon Monoxide; Carbon Monoxide detected, unknown location."; V 3 3 "Carbon Dioxide; Carbon Dioxide detected, unknown location."; V 4 4 "Water Alarm; Water Leak detected, unknown lo.."; V 5 5 "Heat Alarm; Overheat detected, unknown loc."; V 6 6 "Smoke Alarm; Smoke detected, unknown loc."; V 9 9 "Sensor binary."]; P 110 "Temperature sensor offset settings" 2 [V 0 65535 ""]; P 120 "Digital temperature sensor reporting" 1 [V 0 255 ""]].
Definition dpar498 : list gparam := [P 1 "Input 1 switch type" 1 [V 0 0 "mono-stable switch type (push button)"; V 1 1 "bi-stable switch type"]; P 2 "Input 2 switch type" 1 [V 0 0 "mono-stable switch type (push button)"; V 1 1 "bi-stable switch type"]; P 10 "Activate / deactivate functions ALL ON/ALL OFF" 1 [V 0 0 "ALL ON is not active ALL OFF is not active"; V 1 1 "ALL ON is not active ALL OFF active"; V 2 2 "ALL ON active ALL OFF is not active"; V 255 255 "ALL ON active, ALL OFF active"]; P 11 "Automatic turning off relay Q1 after set time" 2 [V 0 65535 ""]; P 12 "Automatic turning off relay Q2 after set time" 2 [V 0 65535 ""]; P 30 "Saving the state of the relays Q1 and Q2 after a power failure" 1 [V 0 0 "Flush 2 relays module saves its state before power failure (it returns"; V 1 1 "Flush 2 relays module does not save the state after a power failure, i"]; P 40 "Power reporting in Watts on power change for Q1" 1 [V 0 255 ""]; P 41 "Power reporting in Watts on power change for Q2" 1 [V 0 255 ""]; P 42 "Power reporting in Watts by time interval for Q1" 2 [V 0 65535 ""]; P 43 "Power reporting in Watts by time interval for Q2" 2 [V 0 65535 ""]].
Definition dpar499 : list gparam := [P 1 "Input 1 switch type" 1 [V 0 0 "mono-stable switch type (push button)"; V 1 1 "bi-stable switch type"]; P 2 "Input 2 switch type" 1 [V 0 0 "mono-stable switch type (push button)"; V 1 1 "bi-stable switch type"]; P 10 "Functions ALL ON/ALL OFF" 2 [V 0 0 "ALL ON is not active ALL OFF is not active"; V 1 1 "ALL ON is not active ALL OFF active"; V 2 2 "ALL ON active ALL OFF is not active"; V 255 255 "ALL ON active, ALL OFF active"]; P 11 "Automatic turning off output Q1 after set time" 2 [V 0 32535 ""]; P 12 "Automatic turning on output Q1 after set time" 2 [V 0 32535 ""]; P 13 "Automatic turning off relay Q2 after set time" 2 [V 0 32535 ""]; P 14 "Automatic turning on output Q2 after set time" 2 [V 0 32535 ""]; P 15 "Automatic turning off / on seconds or milliseconds selection" 1 [V 0 255 ""]; P 30 "Saving the state after a power failure" 1 [V 0 0 "Saves its state before power failure"; V 1 1 "Does not save the state after a power failure"]; P 40 "Power reporting in Watts for Q1" 1 [V 0 100 ""]; P 41 "Power reporting in Watts for Q2" 1 [V 0 100 ""]; P 42 "Power reporting time interval for Q1" 2 [V 0 32535 ""]; P 43 "Power reporting time interval for Q2" 2 [V 0 32535 ""]; P 63 "Output Q1 Switch selection" 1 [V 0 0 "When system is turned off the output is 0V (NC)"; V 1 1 "When system is turned off the output is 230V or 24V (NO)"]; P 64 "Output Q2 Switch selection" 1 [V 0 0 "When system is turned off the output is 0V (NC)"; V 1 1 "When system is turned off the output is 230V or 24V (NO)"]; P 110 "Temperature sensor offset" 2 [V 0 32536 ""]; P 120 "Digital temperature sensor reporting" 1 [V 0 127 ""]].
Definition dpar500 : list gparam := [P 10 "ALL ON/ALL OFF" 2 [V 0 0 "0 - ALL ON is not active ALL OFF is not active"; V 1 1 "1 - ALL ON is not active ALL OFF active"; V 2 2 "2 - ALL ON is not active ALL OFF is not active"; V 255 255 "255 - ALL ON active, ALL OFF active"]; P 40 "Power reporting in watts on power change" 1 [V 0 100 ""]; P 42 "Power reporting in Watts by time interval" 2 [V 0 32767 ""]; P 71 "Operating modes" 1 [V 0 0 "0 – Shutter mode"; V 1 1 "1 – Venetian mode (up/down and slate rotation)"]; P 72 "Slats tilting full turn time" 2 [V 0 32767 ""]; P 73 "Slats position" 1 [V 0 0 "0 - return to previous position for Z-wave control only"; V 0 0 ""; V 1 1 "1 - return to previous position in all cases"]; P 74 "Motor moving up/down time" 2 [V 0 32767 ""]; P 76 "Motor operation detection" 1 [V 0 127 ""]; P 78 "Forced Shutter calibration" 1 [V 0 0 "0 - Default"; V 1 1 "1 - Start Calibration Process"]; P 80 "Reporting to Controller" 1 [V 0 0 "0 - Reporting to Controller Disabled"; V 1 1 "1 - Reporting to Controller Enabled"]; P 85 "Power consumption max delay time" 1 [V 0 50 ""]; P 86 "Power consumption at limit switch delay time" 1 [V 3 50 ""]; P 90 "Relay delay time" 1 [V 1 30 ""]; P 110 "Temperature sensor offset settings" 2 [V 1 32536 ""]; P 120 "Digital temperature sensor reporting" 1 [V 0 127 ""]].
Definition dpar501 : list gparam := [P 10 "ALL ON/ALL OFF" 2 [V 0 0 "0 - ALL ON is not active ALL OFF is not active"; V 1 1 "1 - ALL ON is not active ALL OFF active"; V 2 2 "2 - ALL ON is not active ALL OFF is not active"; V 255 255 "255 - ALL ON active, ALL OFF active"]; P 40 "Power reporting in watts on power change" 1 [V 0 100 ""]; P 42 "Power reporting in Watts by time interval" 2 [V 0 32767 ""]; P 71 "Operating modes" 1 [V 0 0 "0 – Shutter mode"; V 1 1 "1 – Venetian mode (up/down and slate rotation)"]; P 72 "Slats tilting full turn time" 2 [V 0 32767 ""]; P 73 "Slats position" 1 [V 0 0 "0 - return to previous position for Z-wave control only"; V 0 0 ""; V 1 1 "1 - return to previous position in all cases"]; P 74 "Motor moving up/down time" 2 [V 0 32767 ""]; P 76 "Motor operation detection" 1 [V 0 127 ""]; P 78 "Forced Shutter calibration" 1 [V 0 0 "0 - Default"; V 1 1 "1 - Start Calibration Process"]; P 80 "Reporting to Controller" 1 [V 0 0 "0 - Reporting to Controller Disabled"; V 1 1 "1 - Reporting to Controller Enabled"]; P 85 "Power consumption max delay time" 1 [V 0 50 ""]; P 86 "Power consumption at limit switch delay time" 1 [V 3 50 ""]; P 90 "Relay delay time" 1 [V 1 30 ""]; P 110 "Temperature sensor offset settings" 2 [V 1 32536 ""]; P 120 "Digital temperature sensor reporting" 1 [V 0 127 ""]].
Definition dpar502 : list gparam := [P 1 "Input 1 switch type" 1 [V 0 0 "mono-stable switch (push button)"; V 1 1 "bi-stable (toggle) switch"]; P 2 "Input 2 contact type" 1 [V 0 0 "NO (normally open) input type"; V 1 1 "NC (normally close) input type"]; P 3 "Input 3 contact type" 1 [V 0 0 "NO (normally open) input type"; V 1 1 "NC (normally close) input type"]; P 10 "Activate / deactivate functions ALL ON/ALL OFF" 1 [V 0 0 "ALL ON is not active ALL OFF is not active"; V 1 1 "ALL ON is not active ALL OFF active"; V 2 2 "ALL ON active ALL OFF is not active"; V 255 255 "ALL ON active, ALL OFF active"]; P 30 "Saving the state of the device after a power failure" 1 [V 0 0 "Flush dimmer module saves its state before power failure (it returns t"; V 1 1 "Flush dimmer module does not save the state after a power failure, it "]; P 40 "Power reporting in Watts on power change for Q1" 1 [V 0 255 ""]; P 42 "Power reporting in Watts by time interval" 2 [V 0 65535 ""]; P 60 "Minimum dimming value" 1 [V 0 255 ""]; P 61 "Maximum dimming value" 1 [V 0 255 ""]; P 65 "Dimming time (soft on/off)" 1 [V 0 255 ""]; P 66 "Dimming time when key pressed" 1 [V 0 255 ""]].
Definition dpar503 : list gparam := [P 1 "Input 1 switch type" 1 [V 0 0 "0 - Mono-stable switch type (push button)"; V 1 1 "1 - Bi-stable switch type"]; P 2 "Input 2 switch type" 1 [V 0 0 "0 - Mono-stable switch type (push button)"; V 1 1 "1 - Bi-stable switch type"]; P 3 "Input 2 contact type" 1 [V 0 0 "0 - NO (normally open) input type"; V 1 1 "1 - NC (normally closed) input type"]; P 4 "Input 3 contact type" 1 [V 0 0 "0 - NO (normally open) input type"; V 1 1 "1 - NC (normally closed) input type"]; P 10 "Activate / deactivate functions ALL ON / ALL OFF" 2 [V 0 0 "ALL ON is not active, ALL OFF is not active"; V 1 1 "ALL ON is not active, ALL OFF active"; V 2 2 "ALL ON active, ALL OFF is not active"; V 255 255 "ALL ON active, ALL OFF active"]; P 11 "Automatic turning off output after set time" 2 [V 0 32536 ""]; P 12 "Automatic turning on output after set time" 2 [V 0 32536 ""]; P 20 "Enable / Disable 3-way switch" 1 [V 0 0 "0 - single push button (connected to I1)"; V 1 1 "1 - 3-way switch (connected to I1 and I2)"]; P 21 "Enable / Disable Double click function" 1 [V 0 0 "0 - double click disabled"; V 1 1 "1 - double click enabled"]; P 30 "Saving the state of the device after a power failure" 1 [V 0 0 "0 - Save state enabled"; V 1 1 "1 - Save state disabled"]; P 40 "Power reporting in watts on power change" 1 [V 0 100 ""]; P 42 "Power reporting in Watts by time interval" 2 [V 0 32767 ""]; P 60 "Minimum dimming value" 1 [V 1 98 ""]; P 61 "Maximum dimming value" 1 [V 2 99 ""]; P 65 "Dimming time (soft on/off)" 2 [V 1 255 ""]; P 66 "Dimming time when key pressed" 2 [V 1 255 ""]; P 67 "Ignore start level" 1 [V 0 0 "0 - respect start level"; V 1 1 "1 - ignore start level"]; P 68 "Dimming duration" 1 [V 0 127 ""]; P 100 "Enable / Disable Endpoints I2" 1 [V 0 0 "0 – Disabled"; V 1 1 "1 – Home Security"; V 2 2 "2 – Carbon Monoxide"; V 3 3 "3 – Carbon Dioxide"; V 4 4 "4 – Water Alarm"; V 5 5 "5 – Heat Alarm"; V 6 6 "6 - Smoke Alarm"; V 9 9 "9 – Sensor binary"]; P 101 "Enable / Disable Endpoints I3" 1 [V 0 0 "0 – Disabled"; V 1 1 "1 – Home Security"; V 2 2 "2 – Carbon Monoxide"; V 3 3 "3 – Carbon Dioxide"; V 4 4 "4 – Water Alarm"; V 5 5 "5 – Heat Alarm"; V 6 6 "6 - Smoke Alarm"; V 9 9 "9 – Sensor binary"]; P 110 "Temperature sensor offset settings" 2 [V 1 32536 ""]; P 120 "Digital temperature sensor reporting" 1 [V 0 127 ""]].
Definition dpar504 : list gparam := [P 1 "Input 1 switch type" 1 [V 0 0 "mono-stable switch type (push button)"; V 1 1 "bi-stable switch type"]; P 2 "Input 2 switch type" 1 [V 0 0 "mono-stable switch type (push button)"; V 1 1 "bi-stable switch type"]; P 3 "Input 3 switch type" 1 [V 0 0 "mono-stable switch type (push button)"; V 1 1 "bi-stable switch type"]; P 4 "Input 2 contact type" 1 [V 0 0 "NO (normally open) input type"; V 1 1 "NC (normally close) input type"]; P 5 "Input 3 contact type" 1 [V 0 0 "NO (normally open) input type"; V 1 1 "NC (normally close) input type"]; P 10 "Activate / deactivate functions ALL ON/ALL OFF" 1 [V 0 0 "ALL ON is not active ALL OFF is not active"; V 1 1 "ALL ON is not active ALL OFF active"; V 2 2 "ALL ON active ALL OFF is not active"; V 255 255 "ALL ON active, ALL OFF active"]; P 11 "Set point set by I2" 2 [V 0 65535 ""]; P 12 "Set point set by I3" 2 [V 0 65535 ""]; P 30 "Saving the state of the relay after a power failure" 1 [V 0 0 "Module saves its state"; V 1 1 "Module does not save state"]; P 40 "Power reporting in Watts on power change for Q1" 1 [V 0 255 ""]; P 42 "Power reporting in Watts by time interval for Q1" 2 [V 0 65535 ""]; P 43 "Hysteresis On" 1 [V 0 255 ""]; P 44 "Hysteresis Off" 1 [V 0 255 ""]; P 45 "Antifreeze" 1 [V 0 255 ""]; P 60 "Too low temperature limit" 2 [V 0 65535 ""]; P 61 "Too high temperature limit" 2 [V 0 65535 ""]; P 63 "Switch selection" 2 [V 0 65535 ""]].
Definition dpar505 : list gparam := [P 1 "Input 1 switch type" 1 [V 0 0 "mono-stable switch type (push button)"; V 1 1 "bi-stable switch type"]; P 2 "Input 2 switch type" 1 [V 0 0 "mono-stable switch type (push button)"; V 1 1 "bi-stable switch type"]; P 3 "Input 3 switch type" 1 [V 0 0 "mono-stable switch type (push button)"; V 1 1 "bi-stable switch type"]; P 4 "Input 2 contact type" 1 [V 0 0 "NO (normally open) input type"; V 1 1 "NC (normally close) input type"]; P 5 "Input 3 contact type" 1 [V 0 0 "NO (normally open) input type"; V 1 1 "NC (normally close) input type"]; P 10 "Activate / deactivate functions ALL ON/ALL OFF" 1 [V 0 0 "ALL ON is not active ALL OFF is not active"; V 1 1 "ALL ON is not active ALL OFF active"; V 2 2 "ALL ON active ALL OFF is not active"; V 255 255 "ALL ON active, ALL OFF active"]; P 11 "Set point set by I2" 2 [V 0 65535 ""]; P 12 "Set point set by I3" 2 [V 0 65535 ""]; P 40 "Power reporting in Watts on power change for Q1" 1 [V 0 255 ""]; P 42 "Power reporting in Watts by time interval for Q1" 2 [V 0 65535 ""]; P 43 "Hysteresis On" 1 [V 0 255 ""]; P 44 "Hysteresis Off" 1 [V 0 255 ""]; P 45 "Antifreeze" 1 [V 0 255 ""]; P 60 "Too low temperature limit" 2 [V 0 65535 ""]; P 61 "Too high temperature limit" 2 [V 0 65535 ""]; P 63 "Switch selection" 2 [V 0 65535 ""]].
Definition dpar506 : list gparam := [P 1 "Input 1 switch type" 1 [V 0 0 "mono-stable switch type (push button)"; V 1 1 "bi-stable switch type"]; P 2 "Input 2 switch type" 1 [V 0 0 "mono-stable switch type (push button)"; V 1 1 "bi-stable switch type"]; P 3 "Input 3 switch type" 1 [V 0 0 "mono-stable switch type (push button)"; V 1 1 "bi-stable switch type"]; P 4 "Input 1 contact type" 1 [V 0 0 "NO (normally open) input type"; V 1 1 "NC (normally close) input type"]; P 5 "Input 2 contact type" 1 [V 0 0 "NO (normally open) input type"; V 1 1 "NC (normally close) input type"]; P 6 "Input 3 contact type" 1 [V 0 0 "NO (normally open) input type"; V 1 1 "NC (normally close) input type"]; P 11 "Input 1 operation mode selection" 1 [V 0 0 "Button does not influence on selected mode"; V 1 1 "Comfort"; V 2 2 "Comfort-1°C"; V 3 3 "Comfort-2°C"; V 4 4 "Eco Mode"; V 5 5 "Frost Protection"; V 6 6 " Stop"]; P 12 "Input 2 operation mode selection" 1 [V 0 0 "Button does not influence on selected mode"; V 1 1 "Comfort"; V 2 2 "Comfort-1°C"; V 3 3 "Comfort-2°C"; V 4 4 "Eco Mode"; V 5 5 "Frost Protection"; V 6 6 "Stop"]; P 13 "Input 3 operation mode selection" 1 [V 0 0 "Button does not influence on selected mode"; V 1 1 "Comfort"; V 2 2 "Comfort-1°C"; V 3 3 "Comfort-2°C"; V 4 4 "Eco Mode"; V 5 5 "Frost Protection"; V 6 6 "Stop"]; P 30 "Saving the state of the device after a power failure" 1 [V 0 0 "The module saves its state before power failure"; V 1 1 "The module does not save the state"]].
Definition dpar507 : list gparam := [P 1 "Input 1 switch type" 1 [V 0 0 "mono-stable switch type (push button)"; V 1 1 "bi-stable switch type"]; P 2 "Input 2 switch type" 1 [V 0 0 "mono-stable switch type (push button)"; V 1 1 "bi-stable switch type"]; P 3 "Input 3 switch type" 1 [V 0 0 "mono-stable switch type (push button)"; V 1 1 "bi-stable switch type"]; P 4 "Input 1 contact type" 1 [V 0 0 "NO (normally open) input type"; V 1 1 "NC (normally close) input type"]; P 5 "Input 2 contact type" 1 [V 0 0 "NO (normally open) input type"; V 1 1 "NC (normally close) input type"]; P 6 "Input 3 contact type" 1 [V 0 0 "NO (normally open) input type"; V 1 1 "NC (normally close) input type"]; P 11 "Input 1 operation mode selection" 1 [V 0 0 "Button does not influence on selected mode"; V 1 1 "Comfort"; V 2 2 "Comfort-1°C"; V 3 3 "Comfort-2°C"; V 4 4 "Eco Mode"; V 5 5 "Frost Protection"; V 6 6 " Stop"]; P 12 "Input 2 operation mode selection" 1 [V 0 0 "Button does not influence on selected mode"; V 1 1 "Comfort"; V 2 2 "Comfort-1°C"; V 3 3 "Comfort-2°C"; V 4 4 "Eco Mode"; V 5 5 "Frost Protection"; V 6 6 "Stop"]; P 13 "Input 3 operation mode selection" 1 [V 0 0 "Button does not influence on selected mode"; V 1 1 "Comfort"; V 2 2 "Comfort-1°C"; V 3 3 "Comfort-2°C"; V 4 4 "Eco Mode"; V 5 5 "Frost Protection"; V 6 6 "Stop"]; P 30 "Saving the state of the device after a power failure" 1 [V 0 0 "The module saves its state before power failure"; V 1 1 "The module does not save the state"]].
Definition dpar508 : list gparam := [P 1 "Input 1 switch type" 1 [V 0 0 "mono-stable switch type (push button)"; V 1 1 "bi-stable switch type"]; P 2 "Input 2 switch type" 1 [V 0 0 "mono-stable switch type (push button)"; V 1 1 "bi-stable switch type"]; P 3 "Input 3 switch type" 1 [V 0 0 "mono-stable switch type (push button)"; V 1 1 "bi-stable switch type"]; P 4 "Input 1 contact type" 1 [V 0 0 "NO (normally open) input type"; V 1 1 " NC (normally close) input type"]; P 5 "Input 2 contact type" 1 [V 0 0 "NO (normally open) input type"; V 1 1 " NC (normally close) input type"]; P 6 "Input 3 contact type" 1 [V 0 0 "NO (normally open) input type"; V 1 1 " NC (normally close) input type"]; P 10 "Activate / deactivate functions ALL ON/ALL OFF			" 1 [V 0 0 "ALL ON is not active ALL OFF is not active"; V 1 1 "ALL ON is not active ALL OFF active"; V 2 2 "ALL ON active ALL OFF is not active"; V 255 255 "ALL ON active, ALL OFF active"]; P 11 "I1 Functionality Selection" 2 [V 1 65535 ""]; P 12 "I2 Functionality Selection" 2 [V 1 2 ""]; P 13 "I3 Functionality Selection" 2 [V 1 65535 ""]; P 40 "Power reporting in Watts on power change" 1 [V 0 100 ""]; P 42 "Power reporting in Watts by timer interval" 2 [V 0 32767 ""]; P 45 "Antifreeze" 1 [V 0 255 ""]; P 50 "PWM Maximum Value" 1 [V 2 100 ""]; P 51 "PWM Minimum Value" 1 [V 0 99 ""]; P 52 "PWM Cycle Duration" 1 [V 1 127 ""]; P 53 "PID Value Inside Deadband" 1 [V 0 0 "PID value equals ZERO"; V 1 1 "PID value set to LAST VALUE"]; P 54 "PID Deadband" 1 [V 0 127 ""]; P 55 "Integral Sampling Time" 1 [V 0 127 ""]; P 56 "P Parameter" 2 [V 0 1000 ""]; P 57 "I Parameter" 2 [V 0 1000 ""]; P 58 "D Parameter" 2 [V 0 1000 ""]; P 59 "Thermostat Mode" 1 [V 0 0 "Heat Mode"; V 1 1 "Cool Mode"]; P 60 "Too low temperature limit" 2 [V 1 1000 ""]; P 61 "Too high temperature limit" 2 [V 1 1000 ""]; P 63 "Output Switch Selection" 1 [V 0 0 "When system is turned off the output is 0V (NC)
				"; V 1 1 "When system is turned off the output is 230V (NO)
				"]; P 70 "Input 1 Status on delay" 2 [V 0 32000 ""]; P 71 "Input 1 Status off delay" 2 [V 0 32000 ""]; P 72 "Input 2 Status on delay" 2 [V 0 32000 ""]; P 73 "Input 2 Status off delay" 2 [V 0 32000 ""]; P 74 "Input 3 Status on delay" 2 [V 0 32000 ""]; P 75 "Input 3 Status off delay" 2 [V 0 32000 ""]].
Definition dpar509 : list gparam := [P 1 "Input I1 switch type" 1 [V 0 0 "mono-stable switch type"; V 1 1 "bi-stable switch type"]; P 2 "Input I2 switch type" 1 [V 0 0 "mono-stable switch type"; V 1 1 "bi-stable switch type"]; P 3 "Input I3 switch type" 1 [V 0 0 "mono-stable switch type"; V 1 1 "bi-stable switch type"]; P 4 "Input 1 contact type" 1 [V 0 0 "normally open"; V 1 1 "normally closed"]; P 5 "Input 2 contact type" 1 [V 0 0 "normally open"; V 1 1 "normally closed"]; P 6 "Input 3 contact type" 1 [V 0 0 "normally open"; V 1 1 "normally closed"]; P 10 "Activate / deactivate ALL ON/ALL OFF" 2 [V 0 0 "ALL ON is not active / ALL OFF is not active"; V 1 1 "ALL ON is not active / ALL OFF is active"; V 2 2 "ALL ON is active / ALL OFF is not active"; V 255 255 "ALL ON is active / ALL OFF is active"]; P 11 "I1 Functionality selection" 2 [V 1 1 "Input I1 changes the mode between Off and Heat/Cool "; V 2 2 "Input I1 influences the heating/cooling valves"; V 32767 32767 "Input I1 doesnt  influence on the Heat/Cool process"]; P 12 "I2 Functionality selection" 2 [V 2000 2000 "Input I2 influences the cooling value with condense sensor"; V 32767 32767 "Input I2 doesnt influence on the Heat/Cool process"]; P 13 "I3 Functionality selection" 2 [V 1 1 "Input I3 changes the mode between Heat and Cool "; V 2 2 "Input I3 influences the heating/cooling valves"; V 32767 32767 "Input I3 doesnt influence on the Heat/Cool process"]; P 40 "Power reporting in Watts on power change" 1 [V 0 100 ""]; P 42 "Power reporting in Watts by time interval" 2 [V 0 32767 ""]; P 45 "Antifreeze" 2 [V 0 1127 ""]; P 50 "PWM maximum value" 1 [V 2 100 ""]; P 51 "PWM minimum value" 1 [V 0 99 ""]; P 52 "PWM cycle duration" 1 [V 5 127 ""]; P 53 "PID value inside deadband" 1 [V 0 127 ""]; P 54 "PID deadband" 1 [V 0 127 ""]; P 55 "Integral sampling time" 1 [V 0 127 ""]; P 56 "P parameter" 2 [V 0 1000 ""]; P 57 "I parameter" 2 [V 0 1000 ""]; P 58 "D parameter" 2 [V 0 1000 ""]; P 59 "Thermostat mode" 1 [V 0 0 "Heat mode"; V 1 1 "Cool mode"]; P 60 "Too low temperature limit" 2 [V 1 1150 ""]; P 61 "Too high temperature limit" 2 [V 1 1000 ""]; P 63 "Output switch selection" 1 [V 0 0 "When the device is turned off the output is 0V"; V 1 1 "When the system is turned off the output is 230V"]; P 70 "Input I1 status on delay" 2 [V 0 32000 ""]; P 71 "Input I1 status off delay" 2 [V 0 32000 ""]; P 72 "Input I2 status on delay" 2 [V 0 32000 ""]; P 73 "Input I2 status off delay" 2 [V 0 32000 ""]; P 74 "Input I3 status on delay" 2 [V 0 32000 ""]; P 75 "Input I3 status off delay" 2 [V 0 32000 ""]; P 100 "Enable/Disable Endpoint I1 or select type" 1 [V 0 0 "disabled"; V 1 1 "Home security, motion detection"; V 2 2 "CO - Carbon monoxid detected"; V 3 3 "CO2 - Carbon dioxid detected"; V 4 4 "Water alarm"; V 5 5 "Heat alarm"; V 6 6 "Smoke alarm"; V 9 9 "Sensor binary"]; P 101 "Enable/Disable Endpoint I2 or select type" 1 [V 0 0 "disabled"; V 1 1 "Home security, motion detection"; V 2 2 "CO - Carbon monoxid detected"; V 3 3 "CO2 - Carbon dioxid detected"; V 4 4 "Water alarm"; V 5 5 "Heat alarm"; V 6 6 "Smoke alarm"; V 9 9 "Sensor binary "]; P 102 "Enable/Disable Endpoint I3 or select type" 1 [V 0 0 "disabled"; V 1 1 "Home security, motion detection"; V 2 2 "CO - Carbon monoxid detected"; V 3 3 "CO2 - Carbon dioxid detected"; V 4 4 "Water alarm"; V 5 5 "Heat alarm"; V 6 6 "Smoke alarm"; V 9 9 "Sensor binary"]; P 110 "Temperature sensor offset settings" 2 [V 0 32536 ""]; P 120 "Digital temperature sensor reporting" 1 [V 0 127 ""]; P 121 "Digital temperature sensor / setpoint selector" 1 [V 0 0 "internal sensor is mounted"; V 1 1 "temperature is grabbed by sensor with assoc 3"; V 2 2 "temperature is grabbed from ext battery sensor"; V 4 4 "setpoint is grabbed by sensor with assoc 5"; V 8 8 "setpoint is grabbed from ext battery sensor"; V 10 10 "temperature an setpoint are grabbed from ext batt sensor"]; P 122 "Node Id of external battery powered sensor" 1 [V 0 254 ""]].
Definition dpar510 : list gparam := [P 1 "Input 1 switch type" 1 [V 0 0 "mono-stable switch type (push button)"; V 1 1 "bi-stable switch type"]; P 2 "Input 2 contact type" 1 [V 0 0 "NO (normaly open) input type"; V 1 1 "NC (normaly close) input type"]; P 10 "Activate / deactivate functions ALL ON/ALL OFF" 1 [V 0 0 "ALL ON is not active ALL OFF is not active"; V 1 1 "ALL ON is not active ALL OFF active"; V 2 2 "ALL ON active ALL OFF is not active"; V 255 255 "ALL ON active, ALL OFF active"]; P 11 "Automatic turning off relay after set time" 2 [V 0 65535 ""]; P 12 "Automatic turning on relay after set time" 2 [V 0 65535 ""]; P 15 "Automatic turning off / on seconds or milliseconds selection" 1 [V 0 0 "Seconds selected"; V 1 1 "Milliseconds selected"]; P 30 "Saving the state of the relay after a power failure" 1 [V 0 0 "Flush 1D relay module saves its state before power failure (it returns"; V 1 1 "Flush 1D relay module does not save the state after a power failure, i"]; P 63 "Output Switch selection" 1 [V 0 0 "When system is turned off the output is 0V (NC)."; V 1 1 "When system is turned off the output is 230V or 24V (NO)."]; P 100 "Enable / Disable Endpoints I2 or select Notification Type and Event" 1 [V 0 0 "Endpoint, I2 disabled"; V 1 1 "Home Security; Motion Detection, unknown loc."; V 2 2 "Carbon Monoxide; Carbon Monoxide detected, unknown location."; V 3 3 "Carbon Dioxide; Carbon Dioxide detected, unknown location."; V 4 4 "Water Alarm; Water Leak detected, unknown lo.."; V 5 5 "Heat Alarm; Overheat detected, unknown loc."; V 6 6 "Smoke Alarm; Smoke detected, unknown loc."; V 9 9 "Sensor binary."]; P 110 "Temperature sensor offset settings" 2 [V 0 65535 ""]; P 120 "Digital temperature sensor reporting" 1 [V 0 255 ""]].
Definition dpar511 : list gparam := [P 10 "Activate/deactivate functions ALL ON / ALL OFF " 2 [V 0 0 "ALL ON is not active, ALL OFF is not active"; V 1 1 "ALL ON is not active ALL OFF active"; V 2 2 "ALL ON is not active ALL OFF is not active"; V 255 255 "ALL ON active, ALL OFF active"]; P 40 "Power reporting in Watts on power change for Q1 or Q2" 1 [V 0 100 ""]; P 42 "Power reporting in Watts by time interval for Q1 or Q2" 2 [V 0 32767 ""]; P 71 "Operating modes" 1 [V 0 0 "Shutter mode."; V 1 1 "Venetian mode (up/down and slate rotation)"]; P 72 "Slats tilting full turn time" 2 [V 0 32767 ""]; P 73 "Slats position" 1 [V 0 0 "Slats return to previously set position only in case of Z-wave control"; V 1 1 "Slats return to previously set position in case of Z-wave control,	pus"]; P 74 "Motor moving up/down time" 2 [V 0 32767 ""]; P 76 "Motor operation detection" 1 [V 0 100 ""]; P 78 "Forced Shutter DC calibration" 1 [V 0 0 "Default"; V 1 1 "Start calibration process."]; P 85 "Power consumption max delay time" 1 [V 3 50 ""]; P 86 "Power consumption at limit switch delay time" 1 [V 3 50 ""]; P 90 "Time delay for next motor movement" 1 [V 1 30 ""]; P 110 "Temperature sensor offset settings" 2 [V 1 30 ""]; P 120 "Digital temperature sensor reporting" 1 [V 0 127 ""]].
Definition dpar512 : list gparam := [P 1 "Input switch type" 1 [V 0 0 "0 - Mono-stable switch type (push button)"; V 1 1 "1 - Bi-stable switch type"]; P 5 "Working mode" 1 [V 0 0 "Dimmer"; V 1 1 "Switch"]; P 10 "Activate / deactivate functions ALL ON / ALL OFF" 2 [V 0 0 "ALL ON is not active, ALL OFF is not active"; V 1 1 "ALL ON is not active, ALL OFF active"; V 2 2 "ALL ON active, ALL OFF is not active"; V 255 255 "ALL ON active, ALL OFF active"]; P 11 "Automatic turning off output after set time" 2 [V 0 0 "Auto off DISABLED"]; P 12 "Automatic turning on output after set time" 2 [V 0 0 "Auto on DISABLED"]; P 21 "Enable / Disable Double click function" 1 [V 0 0 "0 - double click disabled"; V 1 1 "1 - double click enabled"]; P 30 "Saving the state of the device after a power failure" 1 [V 0 0 "0 - Save state enabled"; V 1 1 "1 - Save state disabled"]; P 40 "Power reporting in watts on power change" 1 [V 0 100 ""]; P 42 "Power reporting in Watts by time interval" 2 [V 0 32767 ""]; P 60 "Minimum dimming value" 1 [V 1 98 ""]; P 61 "Maximum dimming value" 1 [V 2 99 ""]; P 65 "Dimming time (soft on/off)" 2 [V 1 255 ""]; P 66 "Dimming time when key pressed" 2 [V 1 255 ""]; P 67 "Ignore start level" 1 [V 0 0 "0 - respect start level"; V 1 1 "1 - ignore start level"]; P 68 "Dimming duration" 1 [V 0 127 ""]; P 110 "Temperature sensor offset settings" 2 [V 1 32536 ""]; P 120 "Digital temperature sensor reporting" 1 [V 0 127 ""]].
Definition dpar513 : list gparam := [P 1 "Input 1 Switch Type" 1 [V 0 0 "mono-stable switch type (push button)"; V 1 1 "Bi-stable switch type"; V 2 2 "Potentiometer"; V 3 3 "Temperature sensor"; V 4 4 "Illumination sensor"; V 5 5 "General purpose sensor"]; P 11 "Automatic turning off output after set time" 2 [V 0 32536 ""]; P 12 "Automatic turning on output after set time" 2 [V 0 32535 ""]; P 21 "Enable/Disable Double click function" 1 [V 0 1 ""]; P 30 "Saving the state of the device after a power failure" 1 [V 0 1 ""]; P 52 "Auto or manual selection" 1 [V 0 1 ""]; P 53 "PID value inside deadband" 1 [V 0 1 ""]; P 54 "PID deadband " 1 [V 0 100 ""]; P 55 "Integral sampling time " 1 [V 0 127 ""]; P 56 "P parameter" 2 [V 0 1000 ""]; P 57 "I parameter " 2 [V 0 1000 ""]; P 58 "D parameter " 2 [V 0 1000 ""]; P 60 "Minimum dimming value " 1 [V 1 98 ""]; P 61 "Maximum dimming value " 1 [V 2 99 ""]; P 65 " Dimming time (soft on/off)" 2 [V 1 255 ""]; P 66 "Dimming time when key pressed" 1 [V 1 255 ""]; P 67 " Ignore start level " 1 [V 0 1 ""]; P 68 "Dimming duration " 1 [V 1 127 ""]; P 110 "Temperature sensor offset settings" 2 [V 1 32536 ""]; P 120 "Digital temperature sensor reporting" 1 [V 0 127 ""]; P 140 "Input I1 Sensor reporting " 2 [V 0 140 ""]; P 141 " Input I1 0-10V reporting threshold" 1 [V 0 100 ""]; P 143 "Minimum sensor range value " 2 [V 0 20000 ""]; P 144 "Maximum sensor range value " 2 [V 0 20000 ""]].
Definition dpar514 : list gparam := [P 1 "Input switch type" 1 [V 1 1 "bistable switch type"; V 2 2 "monostable (push button) switch type"]; P 2 "Switch mode" 1 [V 1 1 "Normal Mode"; V 2 2 "Brightness Mode"; V 3 3 "Rainbow Mode"]; P 3 "Auto scene mode set" 1 [V 1 1 "Ocean"; V 2 2 "Lightning"; V 3 3 "Rainbow"; V 4 4 "Snow"; V 5 5 "Sun"]; P 4 "Auto scene duration" 1 [V (-128) 127 ""]].
Definition dpar515 : list gparam := [P 1 "Wind Gauge" 2 [V 0 8800 ""]; P 2 "Rain Gauge" 2 [V 0 30000 ""]; P 3 "Wind Gauge" 1 [V 0 1 ""]; P 4 "Rain Gauge" 1 [V 0 1 ""]; P 5 "End Point 1" 1 [V 0 1 ""]; P 6 "End Point 2" 1 [V 0 1 ""]; P 7 "End Point 3" 1 [V 0 1 ""]; P 8 "End Point 4" 1 [V 0 1 ""]; P 9 "End Point 5" 1 [V 0 1 ""]; P 10 "End Point 6" 1 [V 0 1 ""]; P 11 "End Point 7" 1 [V 0 1 ""]; P 12 "End Point 8" 1 [V 0 1 ""]; P 13 "End Point 9" 1 [V 0 1 ""]; P 14 "End Point 10" 1 [V 0 1 ""]; P 15 "Random ID enable" 1 [V 0 1 ""]; P 250 "Unsecure / Secure Inclusion " 1 [V 0 1 ""]].
Definition dpar516 : list gparam := [].
Definition dpar517 : list gparam := [].
Definition dpar518 : list gparam := [P 1 "Set LED indication mode" 1 [V 0 0 "Disabled"; V 1 1 "Show switch state"; V 2 2 "Night mode"; V 3 3 "Remote by indicator command class"]; P 2 "Automatic switch off" 2 [V 0 65535 ""]; P 3 "Function of RF off command" 1 [V 0 0 "Switch OFF"; V 1 1 "Ignore"; V 2 2 "Switch ON"; V 3 3 "Switch on if load is off else switch off"]; P 4 "Switch on dimming by buttons" 1 [V 0 0 "No"; V 1 1 "Yes (Default)"]; P 5 "Switch on dimming by buttons" 1 [V 0 0 "No, turn off"; V 1 1 "Yes (Default)"]; P 10 "Typical click timeout" 1 [V 1 100 ""]; P 11 "Invert buttons" 1 [V 0 0 "No"; V 1 1 "Yes"]; P 12 "Switch by buttons" 1 [V 0 0 "No"; V 1 1 "By single press and hold"; V 2 2 "By double press and hold"]; P 13 "Action on button single press or hold" 1 [V 0 0 "Disabled"; V 1 1 "Switch On, Off and dim using Basic Set"; V 2 2 "Switch All"; V 3 3 "Send Scenes"; V 4 4 "Switch On/Off and Dim (send Basic Set and Switch Multilevel) (Default)"; V 5 5 "Send Preconfigured Scenes"]; P 14 "Action on button double press or hold" 1 [V 0 0 "Disabled (Default)"; V 1 1 "Switch On, Off and dim using Basic Set"; V 2 2 "Switch All"; V 3 3 "Send Scenes"; V 4 4 "Switch On/Off and Dim (send Basic Set and Switch Multilevel)"; V 5 5 "Send Preconfigured Scenes"]; P 15 "Send the following switch all commands" 1 [V (-1) (-1) "Switch all on and off"; V 0 0 "Switch off only"; V 1 1 "Switch on only"]; P 16 "What to do on button Down press" 1 [V 0 0 "Switch off (Default)"; V 1 1 "Switch On if load is Off, else switch Off"; V 3 3 "Switch on"]].
Definition dpar519 : list gparam := [].
Definition dpar520 : list gparam := [].
Definition dpar521 : list gparam := [].
Definition dpar522 : list gparam := [].
Definition dpar523 : list gparam := [P 1 "LED mode" 1 [V 0 0 "Disabled"; V 1 1 "Show working state"; V 2 2 "Show idle state"; V 3 3 "Operated by Indicator Command Class"; V 4 4 "Show if not closed"]; P 2 "Automatically open or close after" 2 [V 0 0 "Disabled"]; P 3 "What to do on RF close command" 1 [V 0 0 "Close"; V 1 1 "Ignore"; V 2 2 "Open"; V 3 3 "Open if closed else close"]; P 4 "Full close time" 1 [V 0 0 "Keep in permanent motion"]; P 5 "Full open time" 1 [V 0 0 "Keep in permanent motion"]; P 6 "Node ID of the blocking device" 1 [V 0 0 "Disabled"]; P 7 "On which command from blocking node to enable the protection" 1 [V 0 0 "on On"; V 1 1 "on Off"]; P 8 "Stop or Revert if opposite button is pressed" 1 [V 0 0 "Stop (by buttons and Binary)"; V 1 1 "Revert"; V 2 2 "Stop (by buttons, Binary and Basic)"]; P 9 "Invert open and close relays" 1 [V 0 0 "No"; V 1 1 "Yes"]; P 10 "Typical click timeout" 1 [V 1 100 ""]; P 11 "Invert buttons" 1 [V 0 0 "No"; V 1 1 "Yes"]; P 12 "Switch by buttons" 1 [V 0 0 "No"; V 1 1 "By single press and hold"; V 2 2 "By double press and hold"]; P 13 "Action on button single press or hold" 1 [V 0 0 "Disabled"; V 1 1 "Switch On/Off (send Basic Set)"; V 2 2 "Switch All"; V 3 3 "Send Scenes"; V 4 4 "Switch On/Off and Dim (send Basic Set and Switch Multilevel)"; V 5 5 "Send Preconfigured Scenes"]; P 14 "Action on button double press or hold" 1 [V 0 0 "Disabled"; V 1 1 "Switch On/Off (send Basic Set)"; V 2 2 "Switch All"; V 3 3 "Send Scenes"; V 4 4 "Switch On/Off (send Basic Set)Switch On/Off and Dim (send Basic Set an"; V 5 5 "Send Preconfigured Scenes"]; P 15 "Send the following Switch All commands" 1 [V 1 1 "Switch off only"; V 2 2 "Switch on only"; V 255 255 "Switch all on and off"]; P 16 "What to do on button Down press" 1 [V 0 0 "Close"; V 1 1 "Open if closed else close"; V 2 2 "Open"]; P 17 "Action on Auto open or close function" 1 [V 0 0 "Close blinds"; V 1 1 "Open blinds"]].
Definition dpar524 : list gparam := [].
Definition dpar525 : list gparam := [].
Definition dpar526 : list gparam := [].
Definition dpar527 : list gparam := [P 1 "Set LED indication mode" 1 [V 0 0 "Disabled"; V 1 1 "Show switch state"; V 2 2 "Night mode"]; P 2 "Automatic switch off" 2 [V 0 65535 ""]; P 3 "Function of RF off command" 1 [V 0 0 "Switch off (default)"; V 1 1 "Ignore"; V 2 2 "Switch on"; V 3 3 "Switch on if load is off else switch off"]; P 4 "Switch on/off by holding buttons" 1 [V 0 0 "No"; V 1 1 "Yes (default)"]; P 5 "Restore switch state after power cycle" 1 [V 0 0 "No, turn off"; V 1 1 "Yes (default)"]; P 11 "Invert buttons" 1 [V 0 0 "No (default)"; V 1 1 "Yes"]; P 12 "Switch by buttons" 1 [V 0 0 "No"; V 1 1 "By single press and hold (default)"; V 2 2 "By double press and press-hold"]; P 13 "Action on button single press or hold" 1 [V 0 0 "Disabled"; V 1 1 "Switch On, Off and dim"; V 2 2 "Switch On, Off only (send Basic Set) (default)"; V 3 3 "Switch All"; V 4 4 "Send scenes"; V 5 5 "Send preconfigured scenes"; V 6 6 "Control devices in proximity"; V 7 7 "Control door lock"; V 8 8 "Control scene to gateway"]; P 14 "Action on button double press or hold" 1 [V 0 0 "Disabled"; V 1 1 "Switch On, Off and dim"; V 2 2 "Switch On, Off only (send Basic Set) (default)"; V 3 3 "Switch All"; V 4 4 "Send scenes"; V 5 5 "Send preconfigured scenes"; V 6 6 "Control devices in proximity"; V 7 7 "Control door lock"; V 8 8 "Control scene to gateway"]; P 15 "Send the following switch all commands" 1 [V 1 1 "Switch Off only (default)"; V 2 2 "Switch On only"; V 255 255 "Switch All on and off"]; P 16 "What to do on button Down press" 1 [V 0 0 "Switch off (default)"; V 1 1 "Switch on if load is off else switch off"; V 2 2 "Switch on"]; P 20 "Energy consumption" 2 [V 0 0 "Disabled (default)"]].
Definition dpar528 : list gparam := [P 1 "ExternalSwitchType" 1 [V 0 0 "Disable"; V 1 1 "TypeA"; V 2 2 "TypeB"; V 3 3 "TypeC"; V 4 4 "TypeD"]; P 2 "Timeout" 1 [V 0 240 ""]; P 3 "NodeIdNumber" 1 [V 0 232 ""]; P 4 "OutputStatus" 1 [V 0 1 ""]].
Definition dpar529 : list gparam := [].
Definition dpar530 : list gparam := [].
Definition dpar531 : list gparam := [].
Definition dpar532 : list gparam := [].
Definition dpar533 : list gparam := [].
Definition dpar534 : list gparam := [P 1 "Swing" 1 [V 1 4 ""]; P 2 "Differntial" 1 [V 1 4 ""]; P 3 "Set Filter Counter" 2 [V 500 4000 ""]; P 4 "Report Filter Counter" 2 [V 0 9999 ""]; P 5 "Scale of Temperature" 1 [V 0 0 "Centigrade"; V 1 1 "Farhenheit"]; P 6 "Upper Limit of Setpoint A" 2 [V 37 99 ""]; P 7 "Lower Limit of Setpoint B" 2 [V 5 95 ""]; P 8 "Easy Mode" 1 [V 0 0 "Easy Mode Disabled"; V 1 1 "Easy Mode Enabled"]; P 9 "Time Format" 1 [V 0 0 "24 Hour Format"; V 1 1 "12 Hour Format"]; P 10 "Repeat Basic Set Counter" 1 [V 0 255 ""]; P 11 "Trigger AUTO report if room temperature is different from last report." 1 [V 0 8 ""]; P 12 "Sensor temperature calibration." 1 [V (-10) 10 ""]; P 13 "AUTO report by time interval." 1 [V 0 16 ""]].
Definition dpar535 : list gparam := [P 1 "Swing" 1 [V 1 4 ""]; P 2 "Differntial" 1 [V 1 4 ""]; P 3 "Set Filter Counter" 2 [V 500 4000 ""]; P 4 "Report Filter Counter" 2 [V 0 9999 ""]; P 5 "Scale of Temperature" 1 [V 0 0 "Centigrade"; V 1 1 "Farhenheit"]; P 6 "Upper Limit of Setpoint A" 2 [V 37 99 ""]; P 7 "Lower Limit of Setpoint B" 2 [V 5 95 ""]; P 8 "Easy Mode" 1 [V 0 0 "Easy Mode Disabled"; V 1 1 "Easy Mode Enabled"]; P 9 "Time Format" 1 [V 0 0 "24 Hour Format"; V 1 1 "12 Hour Format"]; P 10 "Repeat Basic Set Counter" 1 [V 0 255 ""]; P 11 "Trigger AUTO report if room temperature is different from last report." 1 [V 0 8 ""]; P 12 "Sensor temperature calibration." 1 [V (-10) 10 ""]; P 13 "AUTO report by time interval." 1 [V 0 16 ""]].
Definition dpar536 : list gparam := [P 25 "Indicate a location for IR code learning and start learning" 1 [V 0 22 ""]; P 26 "(Read Only) Learning status register" 1 [V 0 4 ""]; P 27 "IR code number for built-in code library" 1 [V 0 255 ""]; P 28 "External IR Emitter power level" 1 [V (-1) (-1) "High power mode"; V 0 0 "Normal power mode"]; P 32 "Surround IR control" 1 [V (-1) (-1) "Enable Surround IR Emitters"; V 0 0 "Disable Surround IR Emitters"]; P 33 "AC function Swing control" 1 [V 0 0 "Swing Off"; V 1 1 "Swing Auto"]; P 35 "(Read Only) Learn location status. Bitmask." 4 [V 0 65535 ""]; P 37 "Sensor temperature compensation" 1 [V 0 255 ""]].
Definition dpar537 : list gparam := [P 25 "Indicate a location for IR code learning and start learning" 1 [V 0 22 ""]; P 26 "Learning status register (Read Only) " 1 [V 0 4 ""]; P 27 "IR code number for built-in code library" 2 [V 0 65535 ""]; P 28 "External IR Emitter power level" 1 [V 0 0 "Normal power mode"; V 255 255 "High power mode"]; P 32 "Surround IR control" 1 [V (-1) (-1) "Enable Surround IR Emitters"; V 0 0 "Disable Surround IR Emitters"]; P 33 "AC function Swing control" 1 [V 0 0 "Swing Off"; V 1 1 "Swing Auto"]; P 35 "Learn location status. Bitmask. (Read Only)" 4 [V 0 65535 ""]; P 37 "Sensor temperature compensation" 1 [V (-5) 5 ""]].
Definition dpar538 : list gparam := [P 25 "Indicate a location for IR code learning and start learning" 1 [V 0 22 ""]; P 26 "Learning status register (Read Only) " 1 [V 0 4 ""]; P 27 "IR code number for built-in code library" 2 [V 0 65535 ""]; P 28 "External IR Emitter power level" 1 [V 0 0 "Normal power mode"; V 255 255 "High power mode"]; P 32 "Surround IR control" 1 [V (-1) (-1) "Enable Surround IR Emitters"; V 0 0 "Disable Surround IR Emitters"]; P 33 "AC function Swing control" 1 [V 0 0 "Swing Off"; V 1 1 "Swing Auto"]; P 35 "Learn location status. Bitmask. (Read Only)" 4 [V 0 65535 ""]; P 37 "Sensor temperature compensation" 1 [V (-5) 5 ""]].
Definition dpar539 : list gparam := [].
Definition dpar540 : list gparam := [].
Definition dpar541 : list gparam := [].
Definition dpar542 : list gparam := [].
Definition dpar543 : list gparam := [].
Definition dpar544 : list gparam := [].
Definition dpar545 : list gparam := [].
Definition dpar546 : list gparam := [].
Definition dpar547 : list gparam := [].
Definition dpar548 : list gparam := [].
Definition dpar549 : list gparam := [P 1 "Temperature Reporting Threshold" 1 [V 0 0 "Disabled"; V 1 1 "0.5 �F"; V 2 2 "1.0 �F"; V 3 3 "1.5 �F"; V 4 4 "2.0 �F"]; P 3 "Utility Lock Enable/Disable" 1 [V 0 0 "Utility lock disable"; V 1 1 "Utility lock enable"]; P 5 "Humidity Reporting Threshold" 1 [V 0 0 "Disabled"; V 1 1 "3% RH"; V 2 2 "5% RH"; V 3 3 "10%RH"]; P 6 "Auxiliary/Emergency" 1 [V 0 0 "Auxiliary/Emergency heat disabled"; V 1 1 "Auxiliary/Emergency heat enable"]; P 7 "Thermostat Swing Temperature" 1 [V 1 1 "0.05F"; V 2 2 "0.1F"; V 8 8 "4F"]; P 8 "Thermostat Diff Temperature" 1 [V 4 4 "2.0 F"; V 8 8 "4.0 F"; V 12 12 "6.0 F"]].
Definition dpar550 : list gparam := [P 1 "Temperature Reporting Threshold" 1 [V 0 0 "Disabled"; V 1 1 "0.5 �F"; V 2 2 "1.0 �F"; V 3 3 "1.5 �F"; V 4 4 "2.0 �F"]; P 3 "Utility Lock Enable/Disable" 1 [V 0 0 "Utility lock disable"; V 1 1 "Utility lock enable"]; P 5 "Humidity Reporting Threshold" 1 [V 0 0 "Disabled"; V 1 1 "3% RH"; V 2 2 "5% RH"; V 3 3 "10%RH"]; P 6 "Auxiliary/Emergency" 1 [V 0 0 "Auxiliary/Emergency heat disabled"; V 1 1 "Auxiliary/Emergency heat enable"]; P 7 "Thermostat Swing Temperature" 1 [V 1 1 "0.05F"; V 2 2 "0.1F"; V 8 8 "4F"]; P 8 "Thermostat Diff Temperature" 1 [V 4 4 "2.0 F"; V 8 8 "4.0 F"; V 12 12 "6.0 F"]].
Definition dpar551 : list gparam := [P 1 "Temperature Reporting Threshold" 1 [V 0 0 "Disabled"; V 1 1 "0.5 �F"; V 2 2 "1.0 �F"; V 3 3 "1.5 �F"; V 4 4 "2.0 �F"]; P 3 "Utility Lock Enable/Disable" 1 [V 0 0 "Utility lock disable"; V 1 1 "Utility lock enable"]; P 5 "Humidity Reporting Threshold" 1 [V 0 0 "Disabled"; V 1 1 "3% RH"; V 2 2 "5% RH"; V 3 3 "10%RH"]; P 6 "Auxiliary/Emergency" 1 [V 0 0 "Auxiliary/Emergency heat disabled"; V 1 1 "Auxiliary/Emergency heat enable"]; P 7 "Thermostat Swing Temperature" 1 [V 1 1 "0.05F"; V 2 2 "0.1F"; V 8 8 "4F"]; P 8 "Thermostat Diff Temperature" 1 [V 4 4 "2.0 F"; V 8 8 "4.0 F"; V 12 12 "6.0 F"]].
Definition dpar552 : list gparam := [P 1 "Temperature Reporting Threshold" 1 [V 0 0 "Disabled"; V 1 1 "0.5 �F"; V 2 2 "1.0 �F"; V 3 3 "1.5 �F"; V 4 4 "2.0 �F"]; P 3 "Utility Lock Enable/Disable" 1 [V 0 0 "Utility lock disable"; V 1 1 "Utility lock enable"]; P 5 "Humidity Reporting Threshold" 1 [V 0 0 "Disabled"; V 1 1 "3% RH"; V 2 2 "5% RH"; V 3 3 "10%RH"]; P 6 "Auxiliary/Emergency" 1 [V 0 0 "Auxiliary/Emergency heat disabled"; V 1 1 "Auxiliary/Emergency heat enable"]; P 7 "Thermostat Swing Temperature" 1 [V 1 1 "0.05F"; V 2 2 "0.1F"; V 8 8 "4F"]; P 8 "Thermostat Diff Temperature" 1 [V 4 4 "2.0 F"; V 8 8 "4.0 F"; V 12 12 "6.0 F"]].
Definition dpar553 : list gparam := [P 1 "Temperature Reporting Threshold" 1 [V 0 0 "Disabled"; V 1 1 "0.5 �F"; V 2 2 "1.0 �F"; V 3 3 "1.5 �F"; V 4 4 "2.0 �F"]; P 3 "Utility Lock Enable/Disable" 1 [V 0 0 "Utility lock disable"; V 1 1 "Utility lock enable"]; P 5 "Humidity Reporting Threshold" 1 [V 0 0 "Disabled"; V 1 1 "3% RH"; V 2 2 "5% RH"; V 3 3 "10%RH"]; P 6 "Auxiliary/Emergency" 1 [V 0 0 "Auxiliary/Emergency heat disabled"; V 1 1 "Auxiliary/Emergency heat enable"]; P 7 "Thermostat Swing Temperature" 1 [V 1 1 "0.05F"; V 2 2 "0.1F"; V 8 8 "4F"]; P 8 "Thermostat Diff Temperature" 1 [V 4 4 "2.0 F"; V 8 8 "4.0 F"; V 12 12 "6.0 F"]].
Definition dpar554 : list gparam := [P 1 "Temperature Reporting Threshold" 1 [V 0 0 "Disabled"; V 1 1 "0.5 �F"; V 2 2 "1.0 �F"; V 3 3 "1.5 �F"; V 4 4 "2.0 �F"]; P 3 "Utility Lock Enable/Disable" 1 [V 0 0 "Utility lock disable"; V 1 1 "Utility lock enable"]; P 5 "Humidity Reporting Threshold" 1 [V 0 0 "Disabled"; V 1 1 "3% RH"; V 2 2 "5% RH"; V 3 3 "10%RH"]; P 6 "Auxiliary/Emergency" 1 [V 0 0 "Auxiliary/Emergency heat disabled"; V 1 1 "Auxiliary/Emergency heat enable"]; P 7 "Thermostat Swing Temperature" 1 [V 1 1 "0.05F"; V 2 2 "0.1F"; V 8 8 "4F"]; P 8 "Thermostat Diff Temperature" 1 [V 4 4 "2.0 F"; V 8 8 "4.0 F"; V 12 12 "6.0 F"]].
Definition dpar555 : list gparam := [P 1 "Temperature Reporting Threshold" 1 [V 0 0 "Disabled"; V 1 1 "0.5F"; V 2 2 "1.0F"; V 3 3 "1.5F"; V 4 4 "2.0F"]; P 3 "Utility Lock Enable/Disable" 1 [V 0 0 "Utility lock disable"; V 1 1 "Utility lock enable"]; P 5 "Humidity Reporting Threshold" 1 [V 0 0 "Disabled"; V 1 1 "3%RH"; V 2 2 "5%RH"; V 3 3 "10%RH"]; P 6 "Auxiliary/Emergency" 1 [V 0 0 "Auxiliary/Emergency heat disable"; V 1 1 "Auxiliary/Emergency heat enable"]; P 7 "Swing Temperature" 1 [V 1 1 "0.0F"; V 2 2 "1F"; V 3 3 "1.5F"; V 4 4 "2F"; V 5 5 "2.5F"; V 6 6 "3F"; V 7 7 "3.5F"; V 8 8 "4F"]; P 8 "Thermostat Diff Temperature" 2 [V 4 3084 ""]; P 9 "Thermostat Recovery Mode" 1 [V 1 1 "Recovery Mode is set to fast."; V 2 2 "Recovery Mode is set to economy."]; P 11 "Simple UI Mode Enable/Disable" 1 [V 0 0 "Simple UI Mode Disabled"; V 1 1 "Simple UI Mode Enabled"]; P 12 "Multicast Enable/Disable" 1 [V 0 0 "Multicast Disabled"; V 1 1 "Function is enabled."]].
Definition dpar556 : list gparam := [P 1 "Temperature Reporting Threshold" 1 [V 0 0 "Disabled"; V 1 1 "0.5F"; V 2 2 "1.0F"; V 3 3 "1.5F"; V 4 4 "2.0F"]; P 3 "Utility Lock Enable/Disable" 1 [V 0 0 "Utility lock disable"; V 1 1 "Utility lock enable"]; P 5 "Humidity Reporting Threshold" 1 [V 0 0 "Disabled"; V 1 1 "3%RH"; V 2 2 "5%RH"; V 3 3 "10%RH"]; P 6 "Auxiliary/Emergency" 1 [V 0 0 "Auxiliary/Emergency heat disable"; V 1 1 "Auxiliary/Emergency heat enable"]; P 7 "Swing Temperature" 1 [V 1 1 "0.0F"; V 2 2 "1F"; V 3 3 "1.5F"; V 4 4 "2F"; V 5 5 "2.5F"; V 6 6 "3F"; V 7 7 "3.5F"; V 8 8 "4F"]; P 8 "Thermostat Diff Temperature" 2 [V 4 3084 ""]; P 9 "Thermostat Recovery Mode" 1 [V 1 1 "Recovery Mode is set to fast."; V 2 2 "Recovery Mode is set to economy."]; P 11 "Simple UI Mode Enable/Disable" 1 [V 0 0 "Simple UI Mode Disabled"; V 1 1 "Simple UI Mode Enabled"]; P 12 "Multicast Enable/Disable" 1 [V 0 0 "Multicast Disabled"; V 1 1 "Function is enabled."]].
Definition dpar557 : list gparam := [P 1 "Temperature Reporting Threshold" 1 [V 0 0 "Disabled"; V 1 1 "0.5F"; V 2 2 "1.0F"; V 3 3 "1.5F"; V 4 4 "2.0F"]; P 3 "Utility Lock Enable/Disable" 1 [V 0 0 "Utility lock disable"; V 1 1 "Utility lock enable"]; P 5 "Humidity Reporting Threshold" 1 [V 0 0 "Disabled"; V 1 1 "3%RH"; V 2 2 "5%RH"; V 3 3 "10%RH"]; P 6 "Auxiliary/Emergency" 1 [V 0 0 "Auxiliary/Emergency heat disable"; V 1 1 "Auxiliary/Emergency heat enable"]; P 7 "Swing Temperature" 1 [V 1 1 "0.0F"; V 2 2 "1F"; V 3 3 "1.5F"; V 4 4 "2F"; V 5 5 "2.5F"; V 6 6 "3F"; V 7 7 "3.5F"; V 8 8 "4F"]; P 8 "Thermostat Diff Temperature" 2 [V 4 3084 ""]; P 9 "Thermostat Recovery Mode" 1 [V 1 1 "Recovery Mode is set to fast."; V 2 2 "Recovery Mode is set to economy."]; P 11 "Simple UI Mode Enable/Disable" 1 [V 0 0 "Simple UI Mode Disabled"; V 1 1 "Simple UI Mode Enabled"]; P 12 "Multicast Enable/Disable" 1 [V 0 0 "Multicast Disabled"; V 1 1 "Function is enabled."]].
Definition dpar558 : list gparam := [].
Definition dpar559 : list gparam := [P 3 "Beeper" 1 [V 0 0 "Disable"; V 255 255 "Enable"]; P 4 "Vacation Mode" 1 [V 0 0 "Disable"; V 255 255 "Enable"]; P 5 "Lock & Leave" 1 [V 0 0 "Disable"; V 255 255 "Enable"]; P 15 "Auto Lock" 1 [V 0 0 "Disable"; V 255 255 "Enable"]; P 16 "User Code PIN Length" 1 [V 4 8 ""]].
Definition dpar560 : list gparam := [P 3 "Beeper" 1 [V 0 0 "Disable Beeper"; V 255 255 "Enable Beeper"]; P 4 "Vacation Mode" 1 [V 0 0 "Disable Vacation Mode"; V 255 255 "Enable Vacation Mode"]; P 5 "Lock & Leave" 1 [V 0 0 "Disable Lock & Leave"; V 255 255 "Enable Lock & Leave"]; P 6 "User Slot Status" 4 [V 0 255 ""]; P 7 "Lock Specific Alarm Mode" 1 [V 0 0 "Alarm Off"; V 1 1 "Alert"; V 2 2 "Tamper"; V 3 3 "Forced Entry"]; P 8 "Lock Specific Alarm Alert Sensitivity" 1 [V 0 0 "Not Supported"; V 1 1 "Most Sensitive"; V 2 2 "More Sensitive"; V 3 3 "Medium Sensitivity"; V 4 4 "Less Sensitive"; V 5 5 "Least Sensitive"]; P 9 "Lock Specific Alarm Tamper Sensitivity" 1 [V 0 0 "Not Supported"; V 1 1 "Most Sensitive"; V 2 2 "More Sensitive"; V 3 3 "Medium Sensitivity"; V 4 4 "Less Sensitive"; V 5 5 "Least Sensitive"]; P 10 "Lock Specific Alarm Kick Sensitivity" 1 [V 0 0 "Not Supported"; V 1 1 "Most Sensitive"; V 2 2 "More Sensitive"; V 3 3 "Medium Sensitivity"; V 4 4 "Less Sensitive"; V 5 5 "Least Sensitive"]; P 11 "Lock Specific Alarm Disable—Local Controls" 1 [V 0 0 "Disable Local Control"; V 255 255 "Enable Local Control"]; P 12 "Electronic Transition Count" 4 [V 0 0 ""]; P 13 "Mechanical Transition Count" 4 [V 0 2147483647 ""]; P 14 "Electronic Failed Count" 4 [V 0 2147483647 ""]; P 15 "Auto Lock" 1 [V 0 0 "Disable Auto Lock"; V 255 255 "Enable Auto Lock"]; P 16 "User Code PIN Length" 1 [V 4 4 "Four Digits"; V 5 5 "Five Digits"; V 6 6 "Six Digits"; V 7 7 "Seven Digits"; V 8 8 "Eight Digits"]; P 18 "Get Bootloader Version" 1 [V 0 255 ""]].
Definition dpar561 : list gparam := [].
Definition dpar562 : list gparam := [].
Definition dpar563 : list gparam := [P 1 "Notification type" 1 [V 0 0 "Binary Sensor report"; V 1 1 "Notification report"; V 2 2 "Basic report"]; P 2 "LED indication" 1 [V 0 0 "Off"; V 1 1 "On"]].
Definition dpar564 : list gparam := [].
Definition dpar565 : list gparam := [P 1 "ON/OFF Delay" 2 [V 0 65535 ""]; P 2 "Basic Set Level" 1 [V 0 255 ""]].
Definition dpar566 : list gparam := [P 1 "Basic setting command" 1 [V 0 0 "OFF"; V 1 1 "Dim level (lower bound) (multilevel switch)"; V 99 99 "Dim level (upper bound) (multilevel switch)"; V 255 255 "ON (Binary switch)"]; P 2 "OFF delay" 2 [V 1 65535 ""]].
Definition dpar567 : list gparam := [P 1 "Sensitivity Level Setting" 1 [V 8 255 ""]; P 2 "ON/OFF Duration Setting" 2 [V 5 600 ""]; P 3 "Basic Set Level" 1 [V 0 255 ""]; P 4 "Enable/Disable PIR Function" 1 [V 0 0 "Disable PIR Detector Function"; V 255 255 "Enable PIR Detector Function"]; P 5 "Lux Level Set" 2 [V 0 1000 ""]; P 6 "Re-trigger Interval" 1 [V 1 8 ""]; P 7 "Light Sensor Polling Interval" 2 [V 60 36000 ""]; P 8 "Lux Level Function Enable" 1 [V 0 0 "Disable Lux Level Function"; V 1 1 "Enable Lux Level Function"]; P 9 "Lux Level Changed Report" 2 [V 0 255 ""]; P 10 "LED Blink Enable" 1 [V 0 0 "Disable LED blinking"; V 1 1 "Enable LED blinking"]].
Definition dpar568 : list gparam := [].
Definition dpar569 : list gparam := [P 1 "OFF Delay" 2 [V 0 65535 ""]; P 2 "Basic Set Level" 1 [V (-1) (-1) "ON (Binary Switch Device)"; V 0 0 "OFF, Alarm cancelling or turning a device off"]].
Definition dpar570 : list gparam := [P 1 "Meter Report Enable" 1 [V 0 0 "Disable Report"; V 1 1 "Enable Report"]; P 2 "Meter Report Interval" 2 [V 1 65535 ""]; P 3 "Maxium over-load current" 1 [V 1 16 ""]; P 4 "Maximum alarm current" 1 [V 1 15 ""]; P 5 "LED enable" 1 [V 0 0 "Disable LED indication Function"; V 1 1 "Enable LED indication Function"]; P 6 "Power Report Threshold" 1 [V 1 100 ""]; P 7 "Remember Relay ON/OFF status after power failure." 1 [V 0 0 "Don’t Remember, the relay will keep OFF when Plug Supply Power."; V 1 1 "Remember the Relay Status."]; P 8 "Plug Time switch Function" 1 [V 0 0 "Time switch Disable"; V 1 1 "Time switch Enable"]; P 9 "Time switch Period" 2 [V 1 65535 ""]; P 10 "Button On/Off Enable" 1 [V 0 0 "Disable Button"; V 1 1 "Enable Button"]].
Definition dpar571 : list gparam := [P 1 "Configure Alarm music volume" 1 [V 1 3 ""]; P 2 "Alarm music duration time" 1 [V 0 255 ""]; P 3 "Door bell music duration time" 1 [V 0 255 ""]; P 4 "Door bell music volume" 1 [V 1 3 ""]; P 5 "Alarm music index" 1 [V 1 10 ""]; P 6 "Door bell music index" 1 [V 1 10 ""]; P 7 "Default Siren on mode" 1 [V 1 2 ""]].
Definition dpar572 : list gparam := [].
Definition dpar573 : list gparam := [].
Definition dpar574 : list gparam := [].
Definition dpar575 : list gparam := [].
Definition dpar576 : list gparam := [].
Definition dpar577 : list gparam := [].
Definition dpar578 : list gparam := [].
Definition dpar579 : list gparam := [].
Definition dpar580 : list gparam := [].
Definition dpar581 : list gparam := [].
Definition dpar582 : list gparam := [].
Definition dpar583 : list gparam := [].
Definition dpar584 : list gparam := [].
Definition dpar585 : list gparam := [].
Definition dpar586 : list gparam := [].
Definition dpar587 : list gparam := [].
Definition dpar588 : list gparam := [].
Definition dpar589 : list gparam := [].
Definition dpar590 : list gparam := [].
Definition dpar591 : list gparam := [P 1 "System Type (read-only)" 2 [V 0 0 ""]; P 2 "Filter - Period (read-only)" 2 [V 0 0 ""]; P 3 "Filter - Days" 2 [V 0 0 ""]; P 4 "Boost Mode Remaining Time" 2 [V 0 0 ""]; P 5 "Temperature Setpoint Step (read-only)" 2 [V 0 0 ""]].
Definition dpar592 : list gparam := [P 1 "" 1 [V 0 0 "Basic"; V 1 1 "Switch Binary"; V 2 2 "Switch All"; V 3 3 "Switch Multilevel"]; P 2 "" 1 [V 255 255 "Last value"]; P 3 "" 1 [V 0 0 "Normal"; V 1 1 "Inverted"]; P 4 "" 1 [V 0 0 "Basic"; V 1 1 "Switch Binary"; V 2 2 "Switch All"; V 3 3 "Switch Multilevel"]; P 5 "" 1 [V 255 255 "Last value"]; P 6 "" 1 [V 0 0 "Normal"; V 1 1 "Inverted"]; P 7 "" 1 [V 0 0 "Off"; V 1 1 "On"]; P 8 "" 1 [V 0 0 "Notification"; V 1 1 "Sensor binary"]].
Definition dpar593 : list gparam := [P 1 "Countdown timer" 1 [V 0 254 ""]; P 2 "Device status after power failure" 1 [V 0 0 "Always off"; V 1 1 "Remember status"; V 2 2 "Always on"]; P 3 "LED indicator" 1 [V 0 100 ""]].
Definition dpar594 : list gparam := [P 1 "Operation mode" 2 [V 0 0 "OFF"; V 1 1 "Heat"; V 2 2 "Cool"; V 11 11 "ENERGY SAVE HEAT"]].
Definition dpar595 : list gparam := [P 2 "Basic Set Level" 1 [V (-1) 100 ""]; P 3 "PIR Sensitivity" 1 [V 0 99 ""]; P 4 "Light Threshold" 1 [V 0 100 ""]; P 5 "Operation Mode" 1 [V 0 127 ""]; P 6 "Multi-Sensor Function Switch" 1 [V 0 127 ""]; P 8 "PIR Re-Detect Interval Time" 1 [V 3 127 ""]; P 9 "Turn Off Light Time" 1 [V 4 127 ""]; P 10 "Auto Report Battery Time" 1 [V 1 127 ""]; P 11 "Auto Report Door/Window State Time" 1 [V 1 127 ""]; P 12 "Auto Report Illumination Time" 1 [V 1 127 ""]; P 13 "Auto Report Temperature Time" 1 [V 1 127 ""]].
Definition dpar596 : list gparam := [P 1 "Watt meter report period" 2 [V 1 32767 ""]; P 2 "KWh meter report period" 2 [V 1 32767 ""]; P 3 "Watt load caution threshold" 2 [V 10 1100 ""]; P 4 "KWh load caution threshold" 2 [V 1 10000 ""]].
Definition dpar597 : list gparam := [P 1 "Night light" 1 [V 0 0 "Disable"; V 1 1 "Enable"]; P 2 "Memory Function" 1 [V 0 0 "Off"; V 1 1 "On"]; P 3 "Invert switch" 1 [V 0 0 "Default"; V 1 1 "Invert"]; P 4 "LED transmission indication" 1 [V 0 0 "No indication"; V 1 1 "Temporary Indication"; V 2 2 "Continuous Indication"]; P 5 "Don't transmit to Group 4" 1 [V 0 0 "Transmit to Group 4"; V 1 1 "Don't transmit to Group 4"]].
Definition dpar598 : list gparam := [].
Definition dpar599 : list gparam := [P 1 "Ignore start level" 1 [V 0 0 "Ignore"; V 1 1 "Don't ignore"]; P 2 "Suspend Group 4" 1 [V 0 0 "Transmit to group 4"; V 1 1 "Disable transmitting to group 4"]; P 3 "Blue LED light Behavior" 1 [V 0 0 "Led on when switch on"; V 1 1 "Night light"]; P 4 "Invert Switch" 1 [V 0 0 "ON on top"; V 1 1 "OFF on top"]; P 14 "Enable Shade Control Group 2" 1 [V 0 0 "Inactive"; V 1 1 "Shade Control"]; P 15 "Enable Shade Control Group 3" 1 [V 0 0 "Inactive"; V 1 1 "Shade Control"]; P 19 "Blue LED light behavior on transmission" 1 [V 0 0 "LED does not blinks on activity"; V 1 1 "LED blinks on activity all the time"; V 2 2 "LED blinks on activity 1 second"]; P 20 "Poll Group 2 Interval (minutes)" 1 [V 1 255 ""]; P 22 "Poll Group 2" 1 [V 0 0 "Disabled"; V 1 1 "Enabled"]].
Definition dpar600 : list gparam := [P 1 "Ignore start level" 1 [V 0 0 "Ignore"; V 1 1 "Don't ignore"]; P 2 "Suspend Group 4" 1 [V 0 0 "Transmit to group 4"; V 1 1 "Disable transmitting to group 4"]; P 3 "Blue LED light Behavior" 1 [V 0 0 "Led on when switch on"; V 1 1 "Night light"]; P 4 "Invert Switch" 1 [V 0 0 "ON on top"; V 1 1 "OFF on top"]; P 14 "Enable Shade Control Group 2" 1 [V 0 0 "Inactive"; V 1 1 "Shade Control"]; P 15 "Enable Shade Control Group 3" 1 [V 0 0 "Inactive"; V 1 1 "Shade Control"]; P 19 "Blue LED light behavior on transmission" 1 [V 0 0 "LED does not blinks on activity"; V 1 1 "LED blinks on activity all the time"; V 2 2 "LED blinks on activity 1 second"]; P 20 "Poll Group 2 Interval (minutes)" 1 [V 1 255 ""]; P 22 "Poll Group 2" 1 [V 0 0 "Disabled"; V 1 1 "Enabled"]].
Definition dpar601 : list gparam := [P 1 "Ignore start level" 1 [V 0 0 "Ignore"; V 1 1 "Don't ignore"]; P 2 "Suspend Group 4" 1 [V 0 0 "Transmit to group 4"; V 1 1 "Disable transmitting to group 4"]; P 3 "Blue LED light Behavior" 1 [V 0 0 "Led on when switch on"; V 1 1 "Night light"]; P 4 "Invert Switch" 1 [V 0 0 "ON on top"; V 1 1 "OFF on top"]; P 14 "Enable Shade Control Group 2" 1 [V 0 0 "Inactive"; V 1 1 "Shade Control"]; P 15 "Enable Shade Control Group 3" 1 [V 0 0 "Inactive"; V 1 1 "Shade Control"]; P 19 "Blue LED light behavior on transmission" 1 [V 0 0 "LED does not blinks on activity"; V 1 1 "LED blinks on activity all the time"; V 2 2 "LED blinks on activity 1 second"]; P 20 "Poll Group 2 Interval (minutes)" 1 [V 1 255 ""]; P 22 "Poll Group 2" 1 [V 0 0 "Disabled"; V 1 1 "Enabled"]].
Definition dpar602 : list gparam := [P 1 "LED Behavior" 1 [V 0 0 "blue indicates off"; V 1 1 "blue indicates on"]].
Definition dpar603 : list gparam := [P 1 "LED Behavior" 1 [V 0 0 "blue indicates off"; V 1 1 "blue indicates on"]].
Definition dpar604 : list gparam := [P 1 "LED Behavior" 1 [V 0 0 "blue indicates off (Default)"; V 1 1 "blue indicates on"]].
Definition dpar605 : list gparam := [P 1 "LED Behavior" 1 [V 0 0 "blue indicates off (Default)"; V 1 1 "blue indicates on"]].
Definition dpar606 : list gparam := [P 1 "LED Indicator Mode" 1 [V 0 0 "Switch off = LED off"; V 1 1 "Switch off = LED on"]; P 2 "Memory Function" 1 [V 0 0 "Memory function off"; V 1 1 "Memory function on"]; P 3 "Watt Meter Report Period" 2 [V 1 32767 ""]; P 4 "kWH Meter Report Period" 2 [V 0 32767 ""]; P 5 "Threshold of Watt for Load Caution" 2 [V 10 3000 ""]; P 6 "Threshold of kWH for Load Caution" 2 [V 1 10000 ""]].
Definition dpar607 : list gparam := [P 1 "Watt meter report interval (5s)" 2 [V 1 32767 ""]; P 2 "KWH Meter Report Interval (10min)" 2 [V 1 32767 ""]; P 3 "Threshold for Load Caution (10mA)" 2 [V 1 1300 ""]; P 4 "Threshold of KWh for Load Caution" 2 [V 1 10000 ""]].
Definition dpar608 : list gparam := [P 1 "Watt meter report interval (5s)" 2 [V 1 32767 ""]; P 2 "KWH Meter Report Interval (10min)" 2 [V 1 32767 ""]; P 3 "Threshold for Load Caution (10mA)" 2 [V 1 1300 ""]; P 4 "Threshold of KWh for Load Caution" 2 [V 1 10000 ""]].
Definition dpar609 : list gparam := [P 132 "Schedule Mode" 1 [V 0 0 "Hold"; V 1 1 "Schedule"]].
Definition dpar610 : list gparam := [P 132 "Schedule Mode" 1 [V 0 0 "Hold"; V 1 1 "Schedule"]].
Definition dpar611 : list gparam := [P 132 "Schedule Mode" 1 [V 0 0 "Hold"; V 1 1 "Schedule"]].
Definition dpar612 : list gparam := [P 132 "Schedule Mode" 1 [V 0 0 "Hold"; V 1 1 "Schedule"]].
Definition dpar613 : list gparam := [].
Definition dpar614 : list gparam := [].
Definition dpar615 : list gparam := [].
Definition dpar616 : list gparam := [].
Definition dpar617 : list gparam := [].
Definition dpar618 : list gparam := [].
Definition dpar619 : list gparam := [].
Definition dpar620 : list gparam := [P 1 "Auto Report Timing" 1 [V 60 255 ""]; P 2 "Report When Wattage Changes" 2 [V 5 3600 ""]].
Definition dpar621 : list gparam := [P 1 "External switch" 1 [V 0 0 "Disabled"; V 255 255 "Enabled"]].
Definition dpar622 : list gparam := [P 1 "External switch" 1 [V 0 0 "Disabled"; V 255 255 "Enabled"]].
Definition dpar623 : list gparam := [P 1 "External switch" 1 [V 0 0 "Disabled"; V 255 255 "Enabled"]].
Definition dpar624 : list gparam := [P 1 "External switch" 1 [V 0 0 "Disabled"; V 255 255 "Enabled"]].
Definition dpar625 : list gparam := [].
Definition dpar626 : list gparam := [].
Definition dpar627 : list gparam := [].
Definition dpar628 : list gparam := [P 1 "" 1 [V 1 1 "Set to 1 for a Single Wall Switch without
					Indicator Light or for"; V 2 2 "Set to 2 for a Single Wall Switch with Indicator
					Light"]].
Definition dpar629 : list gparam := [P 1 "" 1 [V 1 1 "Set to 1 for a Single Wall Switch without
					Indicator Light or for"; V 2 2 "Set to 2 for a Single Wall Switch with Indicator
					Light"]].
Definition dpar630 : list gparam := [P 1 "" 1 [V 1 1 "Set to 1 for a Single Wall Switch without
					Indicator Light or for"; V 2 2 "Set to 2 for a Single Wall Switch with Indicator
					Light"]].
Definition dpar631 : list gparam := [].
Definition dpar632 : list gparam := [P 1 "Siren Strobe Mode" 1 [V 0 0 "All Enabled"; V 1 1 "Siren Only"; V 2 2 "Strobe Only"]; P 2 "Alarm auto stop" 1 [V 0 0 "30 seconds"; V 1 1 "60 seconds"; V 2 2 "120 seconds"; V 3 3 "Continuous"]].
Definition dpar633 : list gparam := [P 1 "Siren Strobe Mode" 1 [V 0 0 "All Enabled"; V 1 1 "Siren Only"; V 2 2 "Strobe Only"]; P 2 "Alarm auto stop" 1 [V 0 0 "30 seconds"; V 1 1 "60 seconds"; V 2 2 "120 seconds"; V 3 3 "Continuous"]].
Definition dpar634 : list gparam := [P 0 "Siren Strobe Mode" 1 [V 0 0 "Strobe and Siren"; V 1 1 "Siren"; V 2 2 "Strobe"]; P 1 "Alarm auto stop" 1 [V 0 0 "30 seconds"; V 1 1 "60 seconds"; V 2 2 "120 seconds"; V 3 3 "Continuous"]].
Definition dpar635 : list gparam := [P 0 "Siren Strobe Mode" 1 [V 0 0 "Strobe and Siren"; V 1 1 "Siren"; V 2 2 "Strobe"]; P 1 "Alarm auto stop" 1 [V 0 0 "30 seconds"; V 1 1 "60 seconds"; V 2 2 "120 seconds"; V 3 3 "Continuous"]].
Definition dpar636 : list gparam := [].
Definition dpar637 : list gparam := [].
Definition dpar638 : list gparam := [P 1 "On time in minutes" 1 [V 1 255 ""]; P 2 "Celsius / Fahrenheit" 1 [V 0 0 "Celsius"; V 1 1 "Fahrenheit"]; P 3 "Infrared sensor sensitivity adjustment" 1 [V 1 7 ""]].
Definition dpar639 : list gparam := [P 1 "On time in minutes" 1 [V 1 255 ""]; P 2 "Celsius / Fahrenheit" 1 [V 0 0 "Celsius"; V 1 1 "Fahrenheit"]; P 3 "Infrared sensor sensitivity adjustment" 1 [V 1 7 ""]].
Definition dpar640 : list gparam := [P 1 "On time in minutes" 1 [V 1 255 ""]; P 2 "Celsius / Fahrenheit" 1 [V 0 0 "Celsius"; V 1 1 "Fahrenheit"]; P 3 "Infrared sensor sensitivity adjustment" 1 [V 1 7 ""]].
Definition dpar641 : list gparam := [P 1 "On time in minutes" 1 [V 1 255 ""]; P 2 "Celsius / Fahrenheit" 1 [V 0 0 "Celsius"; V 1 1 "Fahrenheit"]; P 3 "Infrared sensor sensitivity adjustment" 1 [V 1 7 ""]].
Definition dpar642 : list gparam := [P 1 "On time in minutes" 1 [V 1 255 ""]; P 2 "Celsius / Fahrenheit" 1 [V 0 0 "Celsius"; V 1 1 "Fahrenheit"]; P 3 "Infrared sensor sensitivity adjustment" 1 [V 1 7 ""]].
Definition dpar643 : list gparam := [].
Definition dpar644 : list gparam := [].
Definition dpar645 : list gparam := [].
Definition dpar646 : list gparam := [].
Definition dpar647 : list gparam := [].
Definition dpar648 : list gparam := [P 1 "Temperature Scale" 1 [V 0 0 "Celsius"; V 1 1 "Fahrenheit"]; P 2 "Temperature offset" 1 [V 0 50 ""]; P 3 "Humidity" 1 [V 1 50 ""]; P 4 "Light Sensor" 1 [V 1 50 ""]; P 5 "Trigger Interval" 1 [V 1 255 ""]; P 6 "Motion Sensor Sensitivity" 1 [V 1 1 "highest"; V 2 2 "higher"; V 3 3 "high"; V 4 4 "normal"; V 5 5 "low"; V 6 6 "lower"; V 7 7 "lowest"]; P 7 "LED indicator mode" 1 [V 1 1 "Off"; V 2 2 "Pulsing Temperature, Flashing Motion"; V 3 3 "Flashing Temperature and Motion"]].
Definition dpar649 : list gparam := [P 1 "Up output time" 1 [V 1 255 ""]; P 2 "Stop output time" 1 [V 1 255 ""]; P 3 "Down output time" 1 [V 1 255 ""]].
Definition dpar650 : list gparam := [P 1 "Device status 1 click" 1 [V 1 1 "TOGGLE"; V 2 2 "ON"; V 3 3 "OFF"; V 4 4 "IGNORE"]; P 2 "Device status 2 click" 1 [V 1 1 "TOGGLE"; V 2 2 "ON"; V 3 3 "OFF"; V 4 4 "IGNORE"]].
Definition dpar651 : list gparam := [P 0 "Defines how to control the devices associated to group 4 and 5." 1 [V (-1) 106 ""]; P 1 "Outputs status upon receipt of 1 click on its command" 1 [V 0 0 "IN_OUT"; V 1 1 "TOGGLE"; V 2 2 "ON"; V 3 3 "OFF"; V 4 4 "IGNORE"]; P 2 "Outputs status upon receipt of 2 clicks on its command" 1 [V 1 1 "TOGGLE"; V 2 2 "ON"; V 3 3 "OFF"; V 4 4 "IGNORE"]; P 3 "Type of outputs" 1 [V 0 39 ""]; P 4 "Number of clicks that activate the control of the associated devices" 1 [V 1 1 "1 CLICK"; V 2 2 "2 CLICKS"]; P 5 "Level used to control the devices associated to group 2 and 3" 1 [V (-1) 106 ""]; P 10 "Timer to switch OFF the Channel 1" 2 [V 0 32000 ""]; P 11 "Timer to switch OFF the Channel 2" 2 [V 0 32000 ""]; P 12 "Timer to switch ON the Channel 1" 2 [V 0 32000 ""]; P 13 "Timer to switch ON the Channel 2" 2 [V 0 32000 ""]; P 20 "Outputs status upon receipt of a Multi-Channel Basic Set command" 1 [V 1 1 "AS RECEIVED"; V 2 2 "IGNORE IF ON"; V 3 3 "IGNORE IF OFF"; V 4 4 "IGNORE"]; P 21 "Outputs status upon receipt of a Basic Set command" 2 [V 1 1 "CHANNEL 1"; V 3 3 "BOTH CHANNELS"]; P 60 "Start-up status" 1 [V 0 0 "OFF_OFF"; V 1 1 "ON_OFF"; V 2 2 "OFF_ON"; V 3 3 "ON_ON"; V 4 4 "PREVIOUS STATUS"]; P 61 "Configuration reset" 1 [V 0 0 "FACTORY RESET"; V 1 1 "ASSOCIATIONS RESET"; V 2 2 "CONFIGURATIONS RESET"; V 3 3 "RESTART DEVICE"; V 4 4 "IGNORE"]; P 62 "Type of external switch" 1 [V 0 0 "IGNORE"; V 1 1 "BUTTON"; V 2 2 "SWITCH"]].
Definition dpar652 : list gparam := [P 1 "" 1 [V 1 1 "TOGGLE:ON/OFF"; V 2 2 "ON"; V 3 3 "OFF"; V 4 4 "IGNORE"]; P 20 "Device Status" 1 [V 1 1 "AS RECEIVED"; V 2 2 "IGNORE IF ON"; V 3 3 "IGNORE IF OFF"; V 4 4 "IGNORE"]; P 30 "Overcurrent Level" 2 [V 0 4500 ""]; P 31 "Overcurrent Time" 2 [V 0 10800 ""]; P 32 "Next State" 1 [V 0 0 "IGNORE"; V 1 1 "ON"; V 2 2 "OFF"; V 3 3 "TOGGLE"]; P 33 "Meter Reset" 4 [V 0 0 "Meter parameters, including total operating time, will be reset."; V 1 1 "Greater than 0 – IGNORE (The meter will not be reset.)"]; P 34 "Energy flow" 1 [V 1 1 "CONSUMED"; V 2 2 "PRODUCED"]; P 35 "UP Power Level" 2 [V 0 11250 ""]; P 36 "UP Power Time" 2 [V 0 10800 ""]; P 37 "UP Power State" 1 [V 0 0 "IGNORE"; V 1 1 "ON"; V 2 2 "OFF"; V 3 3 "TOGGLE"]; P 38 "UP Power Associated" 1 [V (-1) 99 ""]; P 39 "DOWN Power Level" 2 [V 0 11250 ""]; P 40 "DOWN Power Time" 2 [V 0 10800 ""]; P 41 "DOWN Power State" 1 [V 0 0 "IGNORE"; V 1 1 "ON"; V 2 2 "OFF"; V 3 3 "TOGGLE"]; P 42 "DOWN Power Associated" 1 [V (-1) 99 ""]; P 43 "DOWN Power Associated" 4 [V 0 2000000 ""]; P 44 "Energy Limit State" 1 [V 0 0 "IGNORE"; V 1 1 "ON"; V 2 2 "OFF"; V 3 3 "TOGGLE"]; P 45 "Variation Instantaneous Power" 1 [V 1 100 ""]; P 46 "Report Time Frequency" 1 [V 1 100 ""]; P 47 "Variation Total Energy" 1 [V 0 0 "IGNORE: No report provided."; V 1 1 "No report provided."; V 2 2 "Report at 1 hundredth of KWh."; V 3 3 "Report at 1 tenth of KWh"; V 4 4 "Report at 1 KWh"]; P 48 "Nominal Voltage" 2 [V 1100 2500 ""]; P 49 "Fall In Maximum Voltage" 1 [V 1 100 ""]; P 50 "Electric parameters subjected to automatic notification" 2 [V 0 62 ""]; P 51 "Voltage RMS value" 2 [V 0 65535 ""]; P 52 "Current RMS value" 2 [V 0 65535 ""]; P 53 "Power Factor" 4 [V 0 65535 ""]; P 54 "Total energy consumed" 4 [V 0 65535 ""]; P 55 "Total energy produced" 4 [V 0 65535 ""]; P 60 "Start-up status" 1 [V 1 1 "ON: Device on"; V 2 2 "OFF: Device off"; V 3 3 "PREVIOUS STATUS: Status prior to restart"]; P 61 "Configuration reset" 1 [V 0 0 "FACTORY RESET: The device is reset to the original factory settings."; V 1 1 "ASSOCIATIONS RESET: All associations and only the associations are res"; V 2 2 "CONFIGURATIONS RESET: The associations are maintained while all other "; V 3 3 "IGNORE: No action is performed."]; P 62 "Type of external switch" 1 [V 0 0 "IGNORE: The external switch is not connected or not present."; V 1 1 "BUTTON: The external switch is a normally open button."; V 2 2 "SWITCH: The external switch is a traditional switch."; V 3 3 "AUTOMATIC RECOGNITION:"]; P 63 "Load Control" 1 [V 1 1 "DIRECT CONTROL"; V 2 2 "CONTROL BY MEANS OF A CONTACTOR WITH NORMALLY OPEN COMMAND:"; V 3 3 "CONTROL BY MEANS OF A CONTACTOR WITH NORMALLY CLOSED COMMAND:"; V 4 4 "AS AN EXTERNAL INDICATOR:"]].
Definition dpar653 : list gparam := [].
Definition dpar654 : list gparam := [].
Definition dpar655 : list gparam := [].
Definition dpar656 : list gparam := [].
Definition dpar657 : list gparam := [].
Definition dpar658 : list gparam := [].
Definition dpar659 : list gparam := [].
Definition dpar660 : list gparam := [].
Definition dpar661 : list gparam := [].
Definition dpar662 : list gparam := [P 1 "Buttons Mode" 1 [V 0 0 "One push button"; V 1 1 "Two paddles with Power and Direction"; V 2 2 "Two toggle switch"; V 3 3 "Two buttons with neutral position"]; P 2 "Automatically close after" 2 [V 0 65535 ""]; P 3 "What to do on RF close command" 1 [V 0 0 "Close"; V 1 1 "Ignore"; V 2 2 "Open"; V 3 3 "Open if closed, otherwise Close"]; P 4 "Typical click timeout" 1 [V 0 100 ""]; P 5 "Invert buttons" 1 [V 0 0 "No"; V 1 1 "Yes"]; P 6 "Action on button press or hold" 1 [V 1 1 "Switch On, Off and dim using Basic Set"; V 2 2 "Send Scene"]; P 7 "LED mode" 1 [V 0 0 "Disabled"; V 1 1 "Show working state"; V 2 2 "Always on"; V 3 3 "Show opened state"; V 4 4 "Indicator Command Class"]; P 10 "Full close time" 1 [V 0 255 ""]; P 11 "Full open time" 1 [V 0 255 ""]; P 12 "Node Id of the blocking device" 1 [V 0 255 ""]; P 13 "which command from blocking node to enable the protection" 1 [V 0 0 "on On"; V 1 1 "on Off"]; P 14 "Invert open and close relays" 1 [V 0 0 "No"; V 1 1 "Yes"]].
Definition dpar663 : list gparam := [P 1 "Reset to factory default" 1 [V 0 0 "No (default)"; V 1 1 "Execute reset"]; P 2 "Command sent on external dry contact" 1 [V 0 0 "Alarm Resport Type 2 (default)"; V 1 1 "Basic On or Basic Off"]; P 5 "Operating Mode" 1 [V 1 1 "Normal Wakeup (default)"; V 3 3 "Always awake"]; P 6 "Temperature Offset" 2 [V 1 15300 ""]].
Definition dpar664 : list gparam := [P 1 "Reset to factory default" 1 [V 0 0 "No (default)"; V 1 1 "Execute reset"]; P 2 "Command sent on external dry contact" 1 [V 0 0 "Alarm Resport Type 2 (default)"; V 1 1 "Basic On or Basic Off"]; P 5 "Operating Mode" 1 [V 1 1 "Normal Wakeup (default)"; V 3 3 "Always awake"]; P 6 "Temperature Offset" 2 [V 1 15300 ""]].
Definition dpar665 : list gparam := [].
Definition dpar666 : list gparam := [P 1 "Set to default" 1 [V 0 0 ""]; P 2 "Mode Timeout" 2 [V 0 3600 ""]; P 3 "Switch off time" 2 [V 0 7200 ""]; P 4 "Sensitivity" 1 [V 0 127 ""]; P 5 "Mode" 1 [V 1 3 ""]; P 6 "The temperature offset" 2 [V (-10) 10 ""]].
Definition dpar667 : list gparam := [P 1 "Set to Default" 1 [V 1 255 ""]; P 2 "Audible feedback config" 1 [V 1 255 ""]; P 3 "Feedback timeout" 1 [V 0 255 ""]; P 4 "Feedback beeps per Second" 1 [V 1 255 ""]; P 5 "Mode" 1 [V 1 255 ""]].
Definition dpar668 : list gparam := [P 1 "Audio Volume" 1 [V 1 1 "Silent"; V 2 2 "Low"; V 3 3 "High"]; P 2 "Auto Re-lock" 1 [V 0 0 "Off"; V 255 255 "On"]; P 3 "Re-lock Time" 1 [V 5 255 ""]; P 4 "Wrong Code Entry Limit" 1 [V 1 7 ""]; P 5 "Language" 1 [V 1 1 "English"; V 2 2 "Spanish"; V 3 3 "French"]; P 7 "Shutdown Time" 1 [V 1 255 ""]; P 8 "Operating Mode" 1 [V 0 0 "Normal"; V 1 1 "Vacation Mode"; V 2 2 "Privacy Mode"]].
Definition dpar669 : list gparam := [].
Definition dpar670 : list gparam := [P 1 "Audio Volume" 1 [V 1 1 "Silent"; V 2 2 "Low"; V 3 3 "High"]; P 2 "Auto Re-lock" 1 [V 0 0 "Off"; V 255 255 "On"]; P 3 "Re-lock time" 1 [V 5 255 ""]; P 4 "Wrong Code Entry Limit" 1 [V 1 7 ""]; P 7 "Shutdown Time" 1 [V 1 255 ""]; P 8 "Operating Mode" 1 [V 0 0 "Normal"; V 1 1 "Vacation"; V 2 2 "Privacy"]].
Definition dpar671 : list gparam := [P 1 "Audio Mode" 1 [V 1 1 "Silent"; V 2 2 "Low"; V 3 3 "High"]; P 2 "Auto relock" 1 [V 0 0 "Off"; V 255 255 "On"]; P 3 "Relock time" 1 [V 5 255 ""]; P 4 "Wrong Code Entry Limit" 1 [V 1 7 ""]; P 5 "Language" 1 [V 1 1 "English"; V 2 2 "Spanish"; V 3 3 "French"]; P 7 "Shutdown Time" 1 [V 1 255 ""]; P 8 "Operating Mode" 1 [V 0 0 "Normal"; V 1 1 "Vacation"; V 2 2 "Privacy"]].
Definition dpar672 : list gparam := [P 1 "Audio Mode" 1 [V 1 1 "Silent"; V 2 2 "Low"; V 3 3 "High"]; P 2 "Auto relock" 1 [V 0 0 "Off"; V 255 255 "On"]; P 3 "Relock time" 1 [V 5 255 ""]; P 4 "Wrong Code Entry Limit" 1 [V 1 7 ""]; P 5 "Language" 1 [V 1 1 "English"; V 2 2 "Spanish"; V 3 3 "French"]; P 7 "Shutdown Time" 1 [V 1 255 ""]; P 8 "Operating Mode" 1 [V 0 0 "Normal"; V 1 1 "Vacation"; V 2 2 "Privacy"]].
Definition dpar673 : list gparam := [P 1 "Audio Volume" 1 [V 1 1 "Silent"; V 2 2 "Low"; V 3 3 "High"]; P 2 "Auto Re-lock" 1 [V 0 255 ""]; P 2 "Auto Re-lock" 1 [V 0 0 "Off"; V 255 255 "On"]; P 3 "Re-lock Time" 1 [V 5 255 ""]; P 4 "Wrong Code Entry Limit" 1 [V 1 7 ""]; P 5 "Language" 1 [V 1 1 "English"; V 2 2 "Spanish"; V 3 3 "French"]; P 7 "Shutdown Time" 1 [V 1 255 ""]; P 8 "Operating Mode" 1 [V 0 0 "Normal"; V 1 1 "Vacation Mode"; V 2 2 "Privacy Mode"]].
Definition dpar674 : list gparam := [P 1 "Audio Volume" 1 [V 1 1 "Silent"; V 2 2 "Low"; V 3 3 "High"]; P 2 "Auto Re-lock" 1 [V 0 255 ""]; P 2 "Auto Re-lock" 1 [V 0 0 "Off"; V 255 255 "On"]; P 3 "Re-lock Time" 1 [V 5 255 ""]; P 4 "Wrong Code Entry Limit" 1 [V 1 7 ""]; P 5 "Language" 1 [V 1 1 "English"; V 2 2 "Spanish"; V 3 3 "French"]; P 7 "Shutdown Time" 1 [V 1 255 ""]; P 8 "Operating Mode" 1 [V 0 0 "Normal"; V 1 1 "Vacation Mode"; V 2 2 "Privacy Mode"]].
Definition dpar675 : list gparam := [P 1 "Audio Volume" 1 [V 1 1 "Silent"; V 2 2 "Low"; V 3 3 "High"]; P 2 "Auto Re-lock" 1 [V 0 255 ""]; P 2 "Auto Re-lock" 1 [V 0 0 "Off"; V 255 255 "On"]; P 3 "Re-lock Time" 1 [V 5 255 ""]; P 4 "Wrong Code Entry Limit" 1 [V 1 7 ""]; P 5 "Language" 1 [V 1 1 "English"; V 2 2 "Spanish"; V 3 3 "French"]; P 7 "Shutdown Time" 1 [V 1 255 ""]; P 8 "Operating Mode" 1 [V 0 0 "Normal"; V 1 1 "Vacation Mode"; V 2 2 "Privacy Mode"]].
Definition dpar676 : list gparam := [P 1 "Audio Volume" 1 [V 1 1 "Silent"; V 2 2 "Low"; V 3 3 "High"]; P 2 "Auto Re-lock" 1 [V 0 255 ""]; P 2 "Auto Re-lock" 1 [V 0 0 "Off"; V 255 255 "On"]; P 3 "Re-lock Time" 1 [V 5 255 ""]; P 4 "Wrong Code Entry Limit" 1 [V 1 7 ""]; P 5 "Language" 1 [V 1 1 "English"; V 2 2 "Spanish"; V 3 3 "French"]; P 7 "Shutdown Time" 1 [V 1 255 ""]; P 8 "Operating Mode" 1 [V 0 0 "Normal"; V 1 1 "Vacation Mode"; V 2 2 "Privacy Mode"]].
Definition dpar677 : list gparam := [P 1 "Audio Volume" 1 [V 1 1 "Silent"; V 2 2 "Low"; V 3 3 "High"]; P 2 "Auto Re-lock" 1 [V 0 0 "Off"; V 255 255 "On"]; P 3 "Re-lock Time" 1 [V 5 255 ""]; P 4 "Wrong Code Entry Limit" 1 [V 1 7 ""]; P 5 "Language" 1 [V 1 1 "English"; V 2 2 "Spanish"; V 3 3 "French"]; P 7 "Shutdown Time" 1 [V 1 255 ""]; P 8 "Operating Mode" 1 [V 0 0 "Normal"; V 1 1 "Vacation Mode"; V 3 3 "Privacy Mode"]].
Definition dpar678 : list gparam := [P 1 "Audio Volume" 1 [V 1 1 "Silent"; V 2 2 "Low"; V 3 3 "High"]; P 2 "Auto Re-lock" 1 [V 0 0 "Off"; V 255 255 "On"]; P 3 "Re-lock Time" 1 [V 5 255 ""]; P 4 "Wrong Code Entry Limit" 1 [V 1 7 ""]; P 5 "Language" 1 [V 1 1 "English"; V 2 2 "Spanish"; V 3 3 "French"]; P 7 "Shutdown Time" 1 [V 1 255 ""]; P 8 "Operating Mode" 1 [V 0 0 "Normal"; V 1 1 "Vacation Mode"; V 3 3 "Privacy Mode"]].
Definition dpar679 : list gparam := [P 1 "Color temperature" 1 [V 1 100 ""]; P 2 "Shock sensor sensitivity" 1 [V 0 31 ""]; P 3 "Strobe Light Interval" 1 [V 0 25 ""]; P 4 "Strobe Light Pulse Count" 1 [V 0 255 ""]; P 5 "Enable or Disable Random Strobe Pulse Colors" 1 [V 0 0 "turn off"; V 1 1 "turn on"]].
Definition dpar680 : list gparam := [P 20 "Overload Protection" 1 [V 0 0 "Disabled"; V 1 1 "Enabled"]; P 21 "On/Off Status Recovery After Power Failure" 1 [V 0 0 "Previous setting"; V 1 1 "ON"; V 2 2 "OFF"]; P 24 "On/Off Status Change Notifications " 1 [V 0 0 "Disabled"; V 1 1 "Send any change"; V 2 2 "Send manual changes"]; P 27 "LED Indicator Control" 1 [V 0 0 "Display power consumption always"; V 1 1 "Display power consumption at state change"]; P 151 "Power Report Value Threshold" 2 [V 0 65535 ""]; P 152 "Power Report Percentage Threshold" 1 [V 0 255 ""]; P 171 "Power Report Frequency" 4 [V 0 2678400 ""]; P 172 "Energy Report Frequency " 4 [V 0 2678400 ""]; P 173 "Voltage Report Frequency " 4 [V 0 2678400 ""]; P 174 "Electricity Report Frequency" 4 [V 0 2678400 ""]].
Definition dpar681 : list gparam := [P 1 "Metering Report" 1 [V 0 0 "Disabled"; V 1 1 "Enabled (default)."]; P 2 "Metering Report Frequency" 2 [V 1 65535 ""]; P 3 "Overload Protection " 1 [V 1 16 ""]; P 4 "Overload Protection Notification" 1 [V 1 13 ""]; P 5 "LED Notifications " 1 [V 0 0 "LED disabled"; V 1 1 "LED enabled (default)"]; P 6 "Power Report Percentage Threshold" 1 [V 1 100 ""]; P 7 "On/Off Status Recovery After Power Failure " 1 [V 0 0 "OFF once power is restored"; V 1 1 "Remembers the status"]; P 8 "Auto Turn-Off Timer  Enable" 1 [V 0 0 "timer disabled (default)"; V 1 1 "timer enabled "]; P 9 "Auto Turn-Off Timer Interval" 2 [V 1 65535 ""]; P 10 "Manual Control" 1 [V 0 0 "manual control disabled"; V 1 1 "manual control enabled (default) "]].
Definition dpar682 : list gparam := [P 1 "Close Delay" 2 [V 0 65535 ""]; P 2 "Trigger Value" 1 [V 0 255 ""]].
Definition dpar683 : list gparam := [P 1 "Motion Sensitivity" 1 [V 8 255 ""]; P 2 "Trigger ON Duration" 2 [V 5 600 ""]; P 3 "Trigger Action" 1 [V 0 255 ""]; P 4 "Motion Detection" 1 [V 0 255 ""]; P 5 "Light Trigger Level" 2 [V 0 1000 ""]; P 6 "Motion Trigger Interval" 1 [V 1 8 ""]; P 7 "Light Polling Interval" 2 [V 60 360000 ""]; P 8 "Light Trigger" 1 [V 0 255 ""]; P 9 "Light Report" 1 [V 0 255 ""]; P 10 "LED Notifications" 1 [V 0 1 ""]].
Definition dpar684 : list gparam := [P 1 "Total Alarm Duration" 1 [V 0 255 ""]; P 2 "Audio Alarm: Beep Interval" 1 [V 1 255 ""]; P 3 "Audio Alarm: First Beep Duration" 1 [V 10 255 ""]; P 4 "Audio Alarm: Beep Duration" 1 [V 5 255 ""]; P 5 "Enable/Disable Audio Alarm" 1 [V 0 1 ""]; P 6 "Enable/Disable Water Detection" 1 [V 0 1 ""]; P 7 "Trigger Action" 1 [V 0 255 ""]].
Definition dpar685 : list gparam := [P 1 "Total Alarm Duration" 1 [V 0 255 ""]; P 2 "Audio Alarm: Beep Interval" 1 [V 1 255 ""]; P 3 "Audio Alarm: First Beep Duration" 1 [V 10 255 ""]; P 4 "Audio Alarm: Beep Duration" 1 [V 5 255 ""]; P 5 "Enable/Disable Audio Alarm" 1 [V 0 1 ""]; P 6 "Enable/Disable Water Detection" 1 [V 0 1 ""]; P 7 "Trigger Action" 1 [V 0 255 ""]].
Definition dpar686 : list gparam := [P 1 "Temperature Scale" 1 [V 0 0 "Celsius"; V 1 1 "Fahrenheit"]; P 2 "Temperature offset" 1 [V 0 50 ""]; P 3 "Humidity" 1 [V 1 50 ""]; P 4 "Light Sensor" 1 [V 1 50 ""]; P 5 "Trigger Interval" 1 [V 1 255 ""]; P 6 "Motion Sensor Sensitivity" 1 [V 1 1 "highest"; V 2 2 "higher"; V 3 3 "high"; V 4 4 "normal"; V 5 5 "low"; V 6 6 "lower"; V 7 7 "lowest"]; P 7 "LED indicator mode" 1 [V 1 1 "Off"; V 2 2 "Pulsing Temperature, Flashing Motion"; V 3 3 "Flashing Temperature and Motion"; V 4 4 "No Temperature, Flashing Motion"]].
Definition dpar687 : list gparam := [P 1 "LED mode" 1 [V 0 0 "Disabled"; V 1 1 "Show working state"; V 2 2 "Show idle state"; V 3 3 "Operated by Indicator Command Class"; V 4 4 "Show if not closed"]; P 2 "Automatically open or close after" 2 [V 0 0 "Disabled"]; P 3 "What to do on RF close command" 1 [V 0 0 "Close"; V 1 1 "Ignore"; V 2 2 "Open"; V 3 3 "Open if closed else close"]; P 4 "Full close time" 1 [V 0 0 "Keep in permanent motion"]; P 5 "Full open time" 1 [V 0 0 "Keep in permanent motion"]; P 6 "Node ID of the blocking device" 1 [V 0 0 "Disabled"]; P 7 "On which command from blocking node to enable the protection" 1 [V 0 0 "on On"; V 1 1 "on Off"]; P 8 "Stop or Revert if opposite button is pressed" 1 [V 0 0 "Stop (by buttons and Binary)"; V 1 1 "Revert"; V 2 2 "Stop (by buttons, Binary and Basic)"]; P 9 "Invert open and close relays" 1 [V 0 0 "No"; V 1 1 "Yes"]; P 10 "Typical click timeout" 1 [V 1 100 ""]; P 11 "Invert buttons" 1 [V 0 0 "No"; V 1 1 "Yes"]; P 12 "Switch by buttons" 1 [V 0 0 "No"; V 1 1 "By single press and hold"; V 2 2 "By double press and hold"]; P 13 "Action on button single press or hold" 1 [V 0 0 "Disabled"; V 1 1 "Switch On/Off (send Basic Set)"; V 2 2 "Switch All"; V 3 3 "Send Scenes"; V 4 4 "Switch On/Off and Dim (send Basic Set and Switch Multilevel)"; V 5 5 "Send Preconfigured Scenes"]; P 14 "Action on button double press or hold" 1 [V 0 0 "Disabled"; V 1 1 "Switch On/Off (send Basic Set)"; V 2 2 "Switch All"; V 3 3 "Send Scenes"; V 4 4 "Switch On/Off (send Basic Set)Switch On/Off and Dim (send Basic Set an"; V 5 5 "Send Preconfigured Scenes"]; P 15 "Send the following Switch All commands" 1 [V 1 1 "Switch off only"; V 2 2 "Switch on only"; V 255 255 "Switch all on and off"]; P 16 "What to do on button Down press" 1 [V 0 0 "Close"; V 1 1 "Open if closed else close"; V 2 2 "Open"]; P 17 "Action on Auto open or close function" 1 [V 0 0 "Close blinds"; V 1 1 "Open blinds"]].
Definition dpar688 : list gparam := [P 1 "Button 1 and 3 pair mode" 1 [V 0 0 "Separately"; V 1 1 "In pair without double clicks"; V 2 2 "In pair with double clicks"]; P 2 "Button 2 and 4 pair mode" 1 [V 0 0 "Separately"; V 1 1 "In pair without double clicks"; V 2 2 "In pair with double clicks"]; P 11 "Action on group 1" 1 [V 0 0 "Disabled"; V 1 1 "Switch On/Off and Dim (send Basic Set and Switch Multilevel)"; V 2 2 "Switch On/Off only (send Basic Set)"; V 3 3 "Switch all"; V 4 4 "Send Scenes"; V 5 5 "Send Preconfigured Scenes"; V 6 6 "Control devices in proximity"]; P 12 "Action on group 2" 1 [V 0 0 "Disabled"; V 1 1 "Switch On/Off and Dim (send Basic Set and Switch Multilevel)"; V 2 2 "Switch On/Off only (send Basic Set)"; V 3 3 "Switch all"; V 4 4 "Send Scenes"; V 5 5 "Send Preconfigured Scenes"; V 6 6 "Control devices in proximity"]; P 13 "Action on group 3" 1 [V 0 0 "Disabled"; V 1 1 "Switch On/Off and Dim (send Basic Set and Switch Multilevel)"; V 2 2 "Switch On/Off only (send Basic Set)"; V 3 3 "Switch all"; V 4 4 "Send Scenes"; V 5 5 "Send Preconfigured Scenes"; V 6 6 "Control devices in proximity"]; P 14 "Action on group 4" 1 [V 0 0 "Disabled"; V 1 1 "Switch On/Off and Dim (send Basic Set and Switch Multilevel)"; V 2 2 "Switch On/Off only (send Basic Set)"; V 3 3 "Switch all"; V 4 4 "Send Scenes"; V 5 5 "Send Preconfigured Scenes"; V 6 6 "Control devices in proximity"]; P 20 "Typical click timeout" 1 [V 0 255 ""]; P 21 "Send the following Switch All commands" 1 [V (-1) (-1) "Switch all on and off"; V 1 1 "NO (Normal Open)"; V 2 2 "NC (Normal Close)"]; P 22 "Invert buttons" 1 [V 0 0 "No"; V 1 1 "Yes"]; P 24 "LED confirmation mode" 1 [V 0 0 "No confirmations"; V 1 1 "Confirm button press"; V 2 2 "Confirm button press and delivery"]; P 30 "Send unsolicited Battery Report on Wake Up" 1 [V 0 0 "No"; V 1 1 "To same node as wake up notification"; V 2 2 "Broadcast to neighbours"]].
Definition dpar689 : list gparam := [P 1 "Button 1 and 3 pair mode" 1 [V 0 0 "Separately"; V 1 1 "In pair without double clicks"; V 2 2 "In pair with double clicks"]; P 2 "Button 2 and 4 pair mode" 1 [V 0 0 "Separately"; V 1 1 "In pair without double clicks"; V 2 2 "In pair with double clicks"]; P 11 "Action on group 1" 1 [V 0 0 "Disabled"; V 1 1 "Switch On/Off and Dim (send Basic Set and Switch Multilevel)"; V 2 2 "Switch On/Off only (send Basic Set)"; V 3 3 "Switch all"; V 4 4 "Send Scenes"; V 5 5 "Send Preconfigured Scenes"; V 6 6 "Control devices in proximity"]; P 12 "Action on group 2" 1 [V 0 0 "Disabled"; V 1 1 "Switch On/Off and Dim (send Basic Set and Switch Multilevel)"; V 2 2 "Switch On/Off only (send Basic Set)"; V 3 3 "Switch all"; V 4 4 "Send Scenes"; V 5 5 "Send Preconfigured Scenes"; V 6 6 "Control devices in proximity"]; P 13 "Action on group 3" 1 [V 0 0 "Disabled"; V 1 1 "Switch On/Off and Dim (send Basic Set and Switch Multilevel)"; V 2 2 "Switch On/Off only (send Basic Set)"; V 3 3 "Switch all"; V 4 4 "Send Scenes"; V 5 5 "Send Preconfigured Scenes"; V 6 6 "Control devices in proximity"]; P 14 "Action on group 4" 1 [V 0 0 "Disabled"; V 1 1 "Switch On/Off and Dim (send Basic Set and Switch Multilevel)"; V 2 2 "Switch On/Off only (send Basic Set)"; V 3 3 "Switch all"; V 4 4 "Send Scenes"; V 5 5 "Send Preconfigured Scenes"; V 6 6 "Control devices in proximity"]; P 20 "Typical click timeout" 1 [V 0 255 ""]; P 21 "Send the following Switch All commands" 1 [V (-1) (-1) "Switch all on and off"; V 1 1 "NO (Normal Open)"; V 2 2 "NC (Normal Close)"]; P 22 "Invert buttons" 1 [V 0 0 "No"; V 1 1 "Yes"]; P 24 "LED confirmation mode" 1 [V 0 0 "No confirmations"; V 1 1 "Confirm button press"; V 2 2 "Confirm button press and delivery"]; P 30 "Send unsolicited Battery Report on Wake Up" 1 [V 0 0 "No"; V 1 1 "To same node as wake up notification"; V 2 2 "Broadcast to neighbours"]].
Definition dpar690 : list gparam := [].
Definition dpar691 : list gparam := [P 1 "Button 1 and 3 pair mode" 1 [V 0 0 "Separately"; V 1 1 "In pair without double clicks"; V 2 2 "In pair with double clicks"]; P 2 "Button 2 and 4 pair mode" 1 [V 0 0 "Separately"; V 1 1 "In pair without double clicks"; V 2 2 "In pair with double clicks"]; P 11 "Action on group 1" 1 [V 0 0 "Disabled"; V 1 1 "Switch On/Off and Dim (send Basic Set and Switch Multilevel)"; V 2 2 "Switch On/Off only (send Basic Set)"; V 3 3 "Switch all"; V 4 4 "Send Scenes"; V 5 5 "Send Preconfigured Scenes"; V 7 7 "Control Door Lock"; V 8 8 "Central Scene to Gateway"]; P 12 "Action on group 2" 1 [V 0 0 "Disabled"; V 1 1 "Switch On/Off and Dim (send Basic Set and Switch Multilevel)"; V 2 2 "Switch On/Off only (send Basic Set)"; V 3 3 "Switch all"; V 4 4 "Send Scenes"; V 5 5 "Send Preconfigured Scenes"; V 7 7 "Control Door Lock"; V 8 8 "Central Scene to Gateway"]; P 13 "Action on group 3" 1 [V 0 0 "Disabled"; V 1 1 "Switch On/Off and Dim (send Basic Set and Switch Multilevel)"; V 2 2 "Switch On/Off only (send Basic Set)"; V 3 3 "Switch all"; V 4 4 "Send Scenes"; V 5 5 "Send Preconfigured Scenes"; V 7 7 "Control Door Lock"; V 8 8 "Central Scene to Gateway"]; P 14 "Action on group 4" 1 [V 0 0 "Disabled"; V 1 1 "Switch On/Off and Dim (send Basic Set and Switch Multilevel)"; V 2 2 "Switch On/Off only (send Basic Set)"; V 3 3 "Switch all"; V 4 4 "Send Scenes"; V 5 5 "Send Preconfigured Scenes"; V 7 7 "Control Door Lock"; V 8 8 "Central Scene to Gateway"]; P 21 "Send the following Switch All commands" 1 [V 1 1 "NO (Normal Open)"; V 2 2 "NC (Normal Close)"; V 255 255 "Switch all on and off"]; P 22 "Invert buttons" 1 [V 0 0 "No"; V 1 1 "Yes"]; P 25 "Blocks wakeup even when wakeup interval is set" 1 [V 0 0 "Wakeup is blocked"; V 1 1 "Wakeup is possible "]; P 30 "Send unsolicited Battery Report on Wake Up" 1 [V 0 0 "No"; V 1 1 "To same node as wake up notification"; V 2 2 "Broadcast to neighbours"]].
Definition dpar692 : list gparam := [P 1 "Button 1 and 3 pair mode" 1 [V 0 0 "Separately"; V 1 1 "In pair without double clicks"; V 2 2 "In pair with double clicks"]; P 2 "Button 2 and 4 pair mode" 1 [V 0 0 "Separately"; V 1 1 "In pair without double clicks"; V 2 2 "In pair with double clicks"]; P 11 "Action on group 1" 1 [V 0 0 "Disabled"; V 1 1 "Switch On/Off and Dim (send Basic Set and Switch Multilevel)"; V 2 2 "Switch On/Off only (send Basic Set)"; V 3 3 "Switch all"; V 4 4 "Send Scenes"; V 5 5 "Send Preconfigured Scenes"]; P 12 "Action on group 2" 1 [V 0 0 "Disabled"; V 1 1 "Switch On/Off and Dim (send Basic Set and Switch Multilevel)"; V 2 2 "Switch On/Off only (send Basic Set)"; V 3 3 "Switch all"; V 4 4 "Send Scenes"; V 5 5 "Send Preconfigured Scenes"]; P 13 "Action on group 3" 1 [V 0 0 "Disabled"; V 1 1 "Switch On/Off and Dim (send Basic Set and Switch Multilevel)"; V 2 2 "Switch On/Off only (send Basic Set)"; V 3 3 "Switch all"; V 4 4 "Send Scenes"; V 5 5 "Send Preconfigured Scenes"]; P 14 "Action on group 4" 1 [V 0 0 "Disabled"; V 1 1 "Switch On/Off and Dim (send Basic Set and Switch Multilevel)"; V 2 2 "Switch On/Off only (send Basic Set)"; V 3 3 "Switch all"; V 4 4 "Send Scenes"; V 5 5 "Send Preconfigured Scenes"]; P 20 "Typical click timeout" 1 [V 0 255 ""]; P 21 "Send the following Switch All commands" 1 [V 1 1 "NO (Normal Open)"; V 2 2 "NC (Normal Close)"; V 255 255 "Switch all on and off"]; P 22 "Invert buttons" 1 [V 0 0 "No"; V 1 1 "Yes"]; P 24 "Led Confirmation Mode" 1 [V 0 0 "No Confirmations"; V 1 1 "Confirm Button Press"; V 2 2 "Confirm Button Press and delivery"]; P 30 "Send unsolicited Battery Report on Wake Up" 1 [V 0 0 "No"; V 1 1 "To same node as wake up notification"; V 2 2 "Broadcast to neighbours"]].
Definition dpar693 : list gparam := [P 1 "Set LED indication mode" 1 [V 0 0 "Disabled"; V 1 1 "Show switch state"; V 2 2 "Night mode"; V 3 3 "Remote by indicator command class"]; P 2 "Automatic switch off" 2 [V 0 65535 ""]; P 3 "Function of RF off command" 1 [V 0 0 "Switch OFF"; V 1 1 "Ignore"; V 2 2 "Switch ON"; V 3 3 "Switch on if load is off else switch off"]; P 4 "Switch on dimming by buttons" 1 [V 0 0 "No"; V 1 1 "Yes (Default)"]; P 5 "Switch on dimming by buttons" 1 [V 0 0 "No, turn off"; V 1 1 "Yes (Default)"]; P 10 "Typical click timeout" 1 [V 1 100 ""]; P 11 "Invert buttons" 1 [V 0 0 "No"; V 1 1 "Yes"]; P 12 "Switch by buttons" 1 [V 0 0 "No"; V 1 1 "By single press and hold"; V 2 2 "By double press and hold"]; P 13 "Action on button single press or hold" 1 [V 0 0 "Disabled"; V 1 1 "Switch On, Off and dim using Basic Set"; V 2 2 "Switch All"; V 3 3 "Send Scenes"; V 4 4 "Switch On/Off and Dim (send Basic Set and Switch Multilevel) (Default)"; V 5 5 "Send Preconfigured Scenes"]; P 14 "Action on button double press or hold" 1 [V 0 0 "Disabled (Default)"; V 1 1 "Switch On, Off and dim using Basic Set"; V 2 2 "Switch All"; V 3 3 "Send Scenes"; V 4 4 "Switch On/Off and Dim (send Basic Set and Switch Multilevel)"; V 5 5 "Send Preconfigured Scenes"]; P 15 "Send the following switch all commands" 1 [V (-1) (-1) "Switch all on and off"; V 0 0 "Switch off only"; V 1 1 "Switch on only"]; P 16 "What to do on button Down press" 1 [V 0 0 "Switch off (Default)"; V 1 1 "Switch On if load is Off, else switch Off"; V 2 2 "Switch on"]].
Definition dpar694 : list gparam := [P 1 "LED mode" 1 [V 0 0 "Disabled"; V 1 1 "Show switch state"; V 2 2 "Night mode (inverted switch state)"; V 3 3 "Operated by Indicator Command Class (Default)"]; P 2 "Automatically switch off after" 2 [V 0 0 "Disabled (Default)"; V 1 1 "Sec"]; P 3 "What to do on RF off command" 1 [V 0 0 "Switch off (Default)"; V 1 1 " Ignore"; V 2 2 "Switch on"; V 3 3 "Switch on if load is off else switch off"]; P 4 "Ignore start level" 1 [V 0 0 "No"; V 1 1 "Yes (Default)"]; P 5 "Dimming speed" 1 [V 0 0 "Instantly"; V 30 30 "Default"]; P 6 "Dimming long speed" 1 [V 1 255 ""]; P 7 "Set maximum light level on On click" 1 [V 0 0 "No (Default)"; V 1 1 "If already On"; V 2 2 "Always"]].
Definition dpar695 : list gparam := [P 1 "LED mode" 1 [V 0 0 "Disabled"; V 1 1 "Show switch state"; V 2 2 "Night mode (inverted switch state)"; V 3 3 "Operated by Indicator Command Class (Default)"]; P 2 "Automatically switch off after" 2 [V 0 0 "Disabled (Default)"; V 1 1 "Sec"]; P 3 "What to do on RF off command" 1 [V 0 0 "Switch off (Default)"; V 1 1 " Ignore"; V 2 2 "Switch on"; V 3 3 "Switch on if load is off else switch off"]; P 4 "Ignore start level" 1 [V 0 0 "No"; V 1 1 "Yes (Default)"]; P 5 "Dimming speed" 1 [V 0 0 "Instantly"; V 30 30 "Default"]; P 6 "Dimming long speed" 1 [V 1 255 ""]; P 7 "Set maximum light level on On click" 1 [V 0 0 "No (Default)"; V 1 1 "If already On"; V 2 2 "Always"]].
Definition dpar696 : list gparam := [P 1 "Set LED indication mode" 1 [V 0 0 "Disabled"; V 1 1 "Show switch state"; V 2 2 "night light (inverted state)"]; P 2 "Automatically switch off first channel after" 2 [V 0 65535 ""]; P 3 "Function of RF off command on first channel" 1 [V 0 0 "Switch OFF"; V 1 1 "Ignore"; V 2 2 "Switch ON"; V 3 3 "Switch on if load is off else switch off"]; P 4 "Switch on/off by holding buttons" 1 [V 0 0 "No"; V 1 1 "Yes (only for the first channel)"; V 2 2 "Yes (only for the second channel)"; V 3 3 "Yes (for both channels)"]; P 5 "Restore switch state after power cycle" 1 [V 0 0 "No, turn off"; V 1 1 "Yes (only for the first channel)"; V 2 2 "Yes (only for the second channel)"; V 3 3 "Yes (for both channels)"]; P 11 "Invert buttons" 1 [V 0 0 "No"; V 1 1 "Yes"]; P 12 "Switch by buttons (first channel)" 1 [V 0 0 "No"; V 1 1 "By single press and hold"; V 2 2 "By double press and press-hold"]; P 13 "Action on button single press or hold" 1 [V 0 0 "Disabled"; V 1 1 "Switch On/Off only (send Basic Set)"; V 2 2 "Switch On/Off and Dim (send Basic Set and Switch Multilevel)"; V 3 3 "Scene activation"]; P 14 "Action on button double press or hold" 1 [V 0 0 "Disabled"; V 1 1 "Switch On/Off only (send Basic Set)"; V 2 2 "Switch On/Off and Dim (send Basic Set and Switch Multilevel)"; V 3 3 "Scene activation"]; P 16 "What to do on button Down press (for both channels)" 1 [V 0 0 "Switch off"; V 1 1 "Switch On if load is Off, else switch Off"; V 2 2 "Switch on"]; P 20 "Energy consumption for first channel" 2 [V 0 0 "Disabled"]; P 22 "Automatically switch off second channel after" 2 [V 0 65535 ""]; P 23 "Function of RF off command on second channel" 1 [V 0 0 "Switch OFF"; V 1 1 "Ignore"; V 2 2 "Switch ON"; V 3 3 "Switch on if load is off else switch off"]; P 32 "Switch by buttons (second channel)" 1 [V 0 0 "No"; V 1 1 "By single press and hold"; V 2 2 "By double press and press-hold"]; P 40 "Energy consumption for second channel" 2 [V 0 0 "Disabled"]].
Definition dpar697 : list gparam := [P 1 "Set LED indication mode" 1 [V 0 0 "Disabled"; V 1 1 "Show switch state"; V 2 2 "Operated by Indicator Command Class"]; P 2 "Automatic switch off" 2 [V 0 65535 ""]; P 3 "Function of RF off command" 1 [V 0 0 "Switch OFF"; V 1 1 "Ignore"; V 2 2 "Switch ON"; V 3 3 "Switch on if load is off else switch off"]; P 5 "Restore switch state after power cycle" 1 [V 0 0 "No, turn off"; V 1 1 "Yes (Default)"]; P 20 "Energy consumption" 2 [V 0 1800 ""]; P 21 "Off Color" 1 [V 0 0 "Off"; V 1 1 "Red"; V 2 2 "Green"; V 3 3 "Blue"; V 4 4 "Yellow"]; P 22 "On Color" 1 [V 0 0 "Off"; V 1 1 "Red"; V 2 2 "Green"; V 3 3 "Blue"; V 4 4 "Yellow"]].
Definition dpar698 : list gparam := [P 10 "Typical click timeout" 1 [V 1 100 ""]; P 11 "Invert buttons" 1 [V 0 0 "No"; V 1 1 "Yes"]; P 13 "Action on button single press or hold" 1 [V 0 0 "Disabled"; V 1 1 "Switch On, Off and dim using Basic Set"; V 2 2 "Switch All"; V 3 3 "Scenes"]; P 14 "Action on button double press or hold" 1 [V 0 0 "Disabled"; V 1 1 "Switch On, Off and dim using Basic Set"; V 2 2 "Switch All"; V 3 3 "Scenes"]; P 15 "Send the following Switch All commands" 1 [V 1 1 "Switch OFF Only"; V 2 2 "Switch ON Only"; V 255 255 "Switch all on and off"]; P 20 "Send unsolicited Battery Report on Wake Up" 1 [V 0 0 "No"; V 1 1 "To same node as wake up notification"; V 2 2 "Broadcast to neighbours"]].
Definition dpar699 : list gparam := [P 10 "Typical click timeout" 1 [V 1 100 ""]; P 11 "Invert buttons" 1 [V 0 0 "No"; V 1 1 "Yes"]; P 13 "Action on button single press or hold" 1 [V 0 0 "Disabled"; V 1 1 "Switch On, Off and dim using Basic Set"; V 2 2 "Switch All"; V 3 3 "Scenes"]; P 14 "Action on button double press or hold" 1 [V 0 0 "Disabled"; V 1 1 "Switch On, Off and dim using Basic Set"; V 2 2 "Switch All"; V 3 3 "Scenes"]; P 15 "Send the following Switch All commands" 1 [V 1 1 "Switch OFF Only"; V 2 2 "Switch ON Only"; V 255 255 "Switch all on and off"]; P 20 "Send unsolicited Battery Report on Wake Up" 1 [V 0 0 "No"; V 1 1 "To same node as wake up notification"; V 2 2 "Broadcast to neighbours"]].
Definition dpar700 : list gparam := [P 1 "Boost Dry mode duration" 2 [V 0 0 ""]; P 2 "Button mode" 1 [V 0 0 "Toggle Normal Heating / Off"; V 1 1 "Toggle Normal Heating / Energy Save"; V 2 2 "Toggle Boost Dry"]; P 3 "Basic mode" 1 [V 0 0 "Toggle Normal Heating / Off"; V 1 1 "Toggle Normal Heating / Energy Save"; V 2 2 "Toggle Boost Dry"; V 3 3 "Set Normal Heating set point temperature (in 0.1 C units)"; V 4 4 "Switch on/off relay directly (only if Thermostat Mode is in Off state)"]; P 4 "Temperature control interval" 1 [V 1 60 ""]; P 5 "Maximum allowed temperature deviation" 1 [V 1 60 ""]; P 6 "Maximal allowed temperature" 1 [V 20 55 ""]; P 10 "Typical click timeout" 1 [V 1 100 ""]].
Definition dpar701 : list gparam := [P 1 "Button 1 and 3 pair mode " 1 [V 0 0 "Separately"; V 1 1 "In pair without double clicks"; V 2 2 "In pair with double clicks"]; P 2 "Button 2 and 4 pair mode " 1 [V 0 0 "Separately"; V 1 1 "In pair without double clicks"; V 2 2 "In pair with double clicks"]; P 11 "Command to Control Group A" 1 [V 0 0 "Disabled"; V 1 1 "Switch On/Off and Dim (send Basic Set and Switch Multilevel)"; V 2 2 "Switch On/Off only (send Basic Set)"; V 3 3 "Switch All"; V 4 4 "Send Scenes"; V 5 5 "Send Preconfigured Scenes"; V 6 6 "Control devices in proximity"; V 7 7 "Control DoorLock"; V 8 8 "Central Scene to Gateway"]; P 12 "Command to Control Group B" 1 [V 0 0 "Disabled"; V 1 1 "Switch On/Off and Dim (send Basic Set and Switch Multilevel)"; V 2 2 "Switch On/Off only (send Basic Set)"; V 3 3 "Switch All"; V 4 4 "Send Scenes"; V 5 5 "Send Preconfigured Scenes"; V 6 6 "Control devices in proximity"; V 7 7 "Control DoorLock"; V 8 8 "Central Scene to Gateway"]; P 13 "Command to Control Group C" 1 [V 0 0 "Disabled"; V 1 1 "Switch On/Off and Dim (send Basic Set and Switch Multilevel)"; V 2 2 "Switch On/Off only (send Basic Set)"; V 3 3 "Switch All"; V 4 4 "Send Scenes"; V 5 5 "Send Preconfigured Scenes"; V 6 6 "Control devices in proximity"; V 7 7 "Control DoorLock"; V 8 8 "Central Scene to Gateway"]; P 14 "Command to Control Group D" 1 [V 0 0 "Disabled"; V 1 1 "Switch On/Off and Dim (send Basic Set and Switch Multilevel)"; V 2 2 "Switch On/Off only (send Basic Set)"; V 3 3 "Switch All"; V 4 4 "Send Scenes"; V 5 5 "Send Preconfigured Scenes"; V 6 6 "Control devices in proximity"; V 7 7 "Control DoorLock"; V 8 8 "Central Scene to Gateway"]; P 21 "Send the following Switch All commands" 1 [V 1 1 "Switch off only"; V 2 2 "Switch on only"; V 255 255 "Switch all on and off"]; P 22 "Invert buttons" 1 [V 0 0 "No"; V 1 1 "Yes"]; P 25 "Blocks wakeup even when wakeup interval is set " 1 [V 0 0 "Wakeup is blocked"; V 1 1 "Wakeup is possible if configured accordingly"]; P 30 "Send unsolicited Battery Report on Wake Up" 1 [V 0 0 "No"; V 1 1 "To same node as wake up notification"; V 2 2 "Broadcast to neighbors"]].
Definition dpar702 : list gparam := [P 1 "Button 1 and 3 pair mode " 1 [V 0 0 "Separately"; V 1 1 "In pair without double clicks"; V 2 2 "In pair with double clicks"]; P 2 "Button 2 and 4 pair mode " 1 [V 0 0 "Separately"; V 1 1 "In pair without double clicks"; V 2 2 "In pair with double clicks"]; P 11 "Command to Control Group A" 1 [V 0 0 "Disabled"; V 1 1 "Switch On/Off and Dim (send Basic Set and Switch Multilevel)"; V 2 2 "Switch On/Off only (send Basic Set)"; V 3 3 "Switch All"; V 4 4 "Send Scenes"; V 5 5 "Send Preconfigured Scenes"; V 6 6 "Control devices in proximity"; V 7 7 "Control DoorLock"; V 8 8 "Central Scene to Gateway"]; P 12 "Command to Control Group B" 1 [V 0 0 "Disabled"; V 1 1 "Switch On/Off and Dim (send Basic Set and Switch Multilevel)"; V 2 2 "Switch On/Off only (send Basic Set)"; V 3 3 "Switch All"; V 4 4 "Send Scenes"; V 5 5 "Send Preconfigured Scenes"; V 6 6 "Control devices in proximity"; V 7 7 "Control DoorLock"; V 8 8 "Central Scene to Gateway"]; P 13 "Command to Control Group C" 1 [V 0 0 "Disabled"; V 1 1 "Switch On/Off and Dim (send Basic Set and Switch Multilevel)"; V 2 2 "Switch On/Off only (send Basic Set)"; V 3 3 "Switch All"; V 4 4 "Send Scenes"; V 5 5 "Send Preconfigured Scenes"; V 6 6 "Control devices in proximity"; V 7 7 "Control DoorLock"; V 8 8 "Central Scene to Gateway"]; P 14 "Command to Control Group D" 1 [V 0 0 "Disabled"; V 1 1 "Switch On/Off and Dim (send Basic Set and Switch Multilevel)"; V 2 2 "Switch On/Off only (send Basic Set)"; V 3 3 "Switch All"; V 4 4 "Send Scenes"; V 5 5 "Send Preconfigured Scenes"; V 6 6 "Control devices in proximity"; V 7 7 "Control DoorLock"; V 8 8 "Central Scene to Gateway"]; P 21 "Send the following Switch All commands" 1 [V 1 1 "Switch off only"; V 2 2 "Switch on only"; V 255 255 "Switch all on and off"]; P 22 "Invert buttons" 1 [V 0 0 "No"; V 1 1 "Yes"]; P 25 "Blocks wakeup even when wakeup interval is set " 1 [V 0 0 "Wakeup is blocked"; V 1 1 "Wakeup is possible if configured accordingly"]; P 30 "Send unsolicited Battery Report on Wake Up" 1 [V 0 0 "No"; V 1 1 "To same node as wake up notification"; V 2 2 "Broadcast to neighbors"]].
Definition dpar703 : list gparam := [P 10 "Command to Control Group No1 (association group 2)" 1 [V 0 0 "Disabled"; V 1 1 "Switch On/Off and Dim (send Basic Set and Switch Multilevel)"; V 2 2 "Switch On/Off only (send Basic Set)"; V 3 3 "Switch All"; V 4 4 "Send Scenes"; V 5 5 "Send Preconfigured Scenes"]; P 11 "Command to Control Group No2 (association group 3)" 1 [V 0 0 "Disabled"; V 1 1 "Switch On/Off and Dim (send Basic Set and Switch Multilevel)"; V 2 2 "Switch On/Off only (send Basic Set)"; V 3 3 "Switch All"; V 4 4 "Send Scenes"; V 5 5 "Send Preconfigured Scenes"]; P 12 "Command to Control Group No3 (association group 4)" 1 [V 0 0 "Disabled"; V 1 1 "Switch On/Off and Dim (send Basic Set and Switch Multilevel)"; V 2 2 "Switch On/Off only (send Basic Set)"; V 3 3 "Switch All"; V 4 4 "Send Scenes"; V 5 5 "Send Preconfigured Scenes"]; P 13 "Command to Control Group No4 (association group 5)" 1 [V 0 0 "Disabled"; V 1 1 "Switch On/Off and Dim (send Basic Set and Switch Multilevel)"; V 2 2 "Switch On/Off only (send Basic Set)"; V 3 3 "Switch All"; V 4 4 "Send Scenes"; V 5 5 "Send Preconfigured Scenes"]; P 14 "Command to Control Group No5 (association group 6)" 1 [V 0 0 "Disabled"; V 1 1 "Switch On/Off and Dim (send Basic Set and Switch Multilevel)"; V 2 2 "Switch On/Off only (send Basic Set)"; V 3 3 "Switch All"; V 4 4 "Send Scenes"; V 5 5 "Send Preconfigured Scenes"]; P 15 "Command to Control Group No6 (association group 7)" 1 [V 0 0 "Disabled"; V 1 1 "Switch On/Off and Dim (send Basic Set and Switch Multilevel)"; V 2 2 "Switch On/Off only (send Basic Set)"; V 3 3 "Switch All"; V 4 4 "Send Scenes"; V 5 5 "Send Preconfigured Scenes"]; P 16 "Command to Control Group No7 (association group 8)" 1 [V 0 0 "Disabled"; V 1 1 "Switch On/Off and Dim (send Basic Set and Switch Multilevel)"; V 2 2 "Switch On/Off only (send Basic Set)"; V 3 3 "Switch All"; V 4 4 "Send Scenes"; V 5 5 "Send Preconfigured Scenes"]; P 17 "Command to Control Scene No1 (association group 9)" 1 [V 0 0 "Disabled"; V 1 1 "Switch On/Off and Dim (send Basic Set and Switch Multilevel)"; V 2 2 "Switch On/Off only (send Basic Set)"; V 3 3 "Switch All"; V 4 4 "Send Scenes"; V 5 5 "Send Preconfigured Scenes"]; P 18 "Command to Control Scene No2 (association group 10)" 1 [V 0 0 "Disabled"; V 1 1 "Switch On/Off and Dim (send Basic Set and Switch Multilevel)"; V 2 2 "Switch On/Off only (send Basic Set)"; V 3 3 "Switch All"; V 4 4 "Send Scenes"; V 5 5 "Send Preconfigured Scenes"]; P 19 "Command to Control Scene No3 (association group 11)" 1 [V 0 0 "Disabled"; V 1 1 "Switch On/Off and Dim (send Basic Set and Switch Multilevel)"; V 2 2 "Switch On/Off only (send Basic Set)"; V 3 3 "Switch All"; V 4 4 "Send Scenes"; V 5 5 "Send Preconfigured Scenes"]; P 20 "Command to Control group All On/Off (association group 12)" 1 [V 0 0 "Disabled"; V 1 1 "Switch On/Off and Dim (send Basic Set and Switch Multilevel)"; V 2 2 "Switch On/Off only (send Basic Set)"; V 3 3 "Switch All"; V 4 4 "Send Scenes"; V 5 5 "Send Preconfigured Scenes"]; P 21 "Send the following Switch All commands" 1 [V 1 1 "Switch off only"; V 2 2 "Switch on only"; V 255 255 "Switch all on and off"]].
Definition dpar704 : list gparam := [].
Definition dpar705 : list gparam := [P 1 "Wind Speed Action Threshold" 1 [V 0 30 ""]; P 2 "Twilight Action Threshold" 1 [V 0 100 ""]].
Definition device_parameters : list (list gparam) := [dpar0; dpar1; dpar2; dpar3; dpar4; dpar5; dpar6; dpar7; dpar8; dpar9; dpar10; dpar11; dpar12; dpar13; dpar14; dpar15; dpar16; dpar17; dpar18; dpar19; dpar20; dpar21; dpar22; dpar23; dpar24; dpar25; dpar26; dpar27; dpar28; dpar29; dpar30; dpar31; dpar32; dpar33; dpar34; dpar35; dpar36; dpar37; dpar38; dpar39; dpar40; dpar41; dpar42; dpar43; dpar44; dpar45; dpar46; dpar47; dpar48; dpar49; dpar50; dpar51; dpar52; dpar53; dpar54; dpar55; dpar56; dpar57; dpar58; dpar59; dpar60; dpar61; dpar62; dpar63; dpar64; dpar65; dpar66; dpar67; dpar68; dpar69; dpar70; dpar71; dpar72; dpar73; dpar74; dpar75; dpar76; dpar77; dpar78; dpar79; dpar80; dpar81; dpar82; dpar83; dpar84; dpar85; dpar86; dpar87; dpar88; dpar89; dpar90; dpar91; dpar92; dpar93; dpar94; dpar95; dpar96; dpar97; dpar98; dpar99; dpar100; dpar101; dpar102; dpar103; dpar104; dpar105; dpar106; dpar107; dpar108; dpar109; dpar110; dpar111; dpar112; dpar113; dpar114; dpar115; dpar116; dpar117; dpar118; dpar119; dpar120; dpar121; dpar122; dpar123; dpar124; dpar125; dpar126; dpar127; dpar128; dpar129; dpar130; dpar131; dpar132; dpar133; dpar134; dpar135; dpar136; dpar137; dpar138; dpar139; dpar140; dpar141; dpar142; dpar143; dpar144; dpar145; dpar146; dpar147; dpar148; dpar149; dpar150; dpar151; dpar152; dpar153; dpar154; dpar155; dpar156; dpar157; dpar158; dpar159; dpar160; dpar161; dpar162; dpar163; dpar164; dpar165; dpar166; dpar167; dpar168; dpar169; dpar170; dpar171; dpar172; dpar173; dpar174; dpar175; dpar176; dpar177; dpar178; dpar179; dpar180; dpar181; dpar182; dpar183; dpar184; dpar185; dpar186; dpar187; dpar188; dpar189; dpar190; dpar191; dpar192; dpar193; dpar194; dpar195; dpar196; dpar197; dpar198; dpar199; dpar200; dpar201; dpar202; dpar203; dpar204; dpar205; dpar206; dpar207; dpar208; dpar209; dpar210; dpar211; dpar212; dpar213; dpar214; dpar215; dpar216; dpar217; dpar218; dpar219; dpar220; dpar221; dpar222; dpar223; dpar224; dpar225; dpar226; dpar227; dpar228; dpar229; dpar230; dpar231; dpar232; dpar233; dpar234; dpar235; dpar236; dpar237; dpar238; dpar239; dpar240; dpar241; dpar242; dpar243; dpar244; dpar245; dpar246; dpar247; dpar248; dpar249; dpar250; dpar251; dpar252; dpar253; dpar254; dpar255; dpar256; dpar257; dpar258; dpar259; dpar260; dpar261; dpar262; dpar263; dpar264; dpar265; dpar266; dpar267; dpar268; dpar269; dpar270; dpar271; dpar272; dpar273; dpar274; dpar275; dpar276; dpar277; dpar278; dpar279; dpar280; dpar281; dpar282; dpar283; dpar284; dpar285; dpar286; dpar287; dpar288; dpar289; dpar290; dpar291; dpar292; dpar293; dpar294; dpar295; dpar296; dpar297; dpar298; dpar299; dpar300; dpar301; dpar302; dpar303; dpar304; dpar305; dpar306; dpar307; dpar308; dpar309; dpar310; dpar311; dpar312; dpar313; dpar314; dpar315; dpar316; dpar317; dpar318; dpar319; dpar320; dpar321; dpar322; dpar323; dpar324; dpar325; dpar326; dpar327; dpar328; dpar329; dpar330; dpar331; dpar332; dpar333; dpar334; dpar335; dpar336; dpar337; dpar338; dpar339; dpar340; dpar341; dpar342; dpar343; dpar344; dpar345; dpar346; dpar347; dpar348; dpar349; dpar350; dpar351; dpar352; dpar353; dpar354; dpar355; dpar356; dpar357; dpar358; dpar359; dpar360; dpar361; dpar362; dpar363; dpar364; dpar365; dpar366; dpar367; dpar368; dpar369; dpar370; dpar371; dpar372; dpar373; dpar374; dpar375; dpar376; dpar377; dpar378; dpar379; dpar380; dpar381; dpar382; dpar383; dpar384; dpar385; dpar386; dpar387; dpar388; dpar389; dpar390; dpar391; dpar392; dpar393; dpar394; dpar395; dpar396; dpar397; dpar398; dpar399; dpar400; dpar401; dpar402; dpar403; dpar404; dpar405; dpar406; dpar407; dpar408; dpar409; dpar410; dpar411; dpar412; dpar413; dpar414; dpar415; dpar416; dpar417; dpar418; dpar419; dpar420; dpar421; dpar422; dpar423; dpar424; dpar425; dpar426; dpar427; dpar428; dpar429; dpar430; dpar431; dpar432; dpar433; dpar434; dpar435; dpar436; dpar437; dpar438; dpar439; dpar440; dpar441; dpar442; dpar443; dpar444; dpar445; dpar446; dpar447; dpar448; dpar449; dpar450; dpar451; dpar452; dpar453; dpar454; dpar455; dpar456; dpar457; dpar458; dpar459; dpar460; dpar461; dpar462; dpar463; dpar464; dpar465; dpar466; dpar467; dpar468; dpar469; dpar470; dpar471; dpar472; dpar473; dpar474; dpar475; dpar476; dpar477; dpar478; dpar479; dpar480; dpar481; dpar482; dpar483; dpar484; dpar485; dpar486; dpar487; dpar488; dpar489; dpar490; dpar491; dpar492; dpar493; dpar494; dpar495; dpar496; dpar497; dpar498; dpar499; dpar500; dpar501; dpar502; dpar503; dpar504; dpar505; dpar506; dpar507; dpar508; dpar509; dpar510; dpar511; dpar512; dpar513; dpar514; dpar515; dpar516; dpar517; dpar518; dpar519; dpar520; dpar521; dpar522; dpar523; dpar524; dpar525; dpar526; dpar527; dpar528; dpar529; dpar530; dpar531; dpar532; dpar533; dpar534; dpar535; dpar536; dpar537; dpar538; dpar539; dpar540; dpar541; dpar542; dpar543; dpar544; dpar545; dpar546; dpar547; dpar548; dpar549; dpar550; dpar551; dpar552; dpar553; dpar554; dpar555; dpar556; dpar557; dpar558; dpar559; dpar560; dpar561; dpar562; dpar563; dpar564; dpar565; dpar566; dpar567; dpar568; dpar569; dpar570; dpar571; dpar572; dpar573; dpar574; dpar575; dpar576; dpar577; dpar578; dpar579; dpar580; dpar581; dpar582; dpar583; dpar584; dpar585; dpar586; dpar587; dpar588; dpar589; dpar590; dpar591; dpar592; dpar593; dpar594; dpar595; dpar596; dpar597; dpar598; dpar599; dpar600; dpar601; dpar602; dpar603; dpar604; dpar605; dpar606; dpar607; dpar608; dpar609; dpar610; dpar611; dpar612; dpar613; dpar614; dpar615; dpar616; dpar617; dpar618; dpar619; dpar620; dpar621; dpar622; dpar623; dpar624; dpar625; dpar626; dpar627; dpar628; dpar629; dpar630; dpar631; dpar632; dpar633; dpar634; dpar635; dpar636; dpar637; dpar638; dpar639; dpar640; dpar641; dpar642; dpar643; dpar644; dpar645; dpar646; dpar647; dpar648; dpar649; dpar650; dpar651; dpar652; dpar653; dpar654; dpar655; dpar656; dpar657; dpar658; dpar659; dpar660; dpar661; dpar662; dpar663; dpar664; dpar665; dpar666; dpar667; dpar668; dpar669; dpar670; dpar671; dpar672; dpar673; dpar674; dpar675; dpar676; dpar677; dpar678; dpar679; dpar680; dpar681; dpar682; dpar683; dpar684; dpar685; dpar686; dpar687; dpar688; dpar689; dpar690; dpar691; dpar692; dpar693; dpar694; dpar695; dpar696; dpar697; dpar698; dpar699; dpar700; dpar701; dpar702; dpar703; dpar704; dpar705].
