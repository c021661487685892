(** Generated by tools/gen_database.py: literal contents of
    /repo/protocol/constants.go, /repo/database/mandatory.go and the lines of
    /repo/database/mandatory.txt. *)
From Verif Require Import ModelBase.
Local Open Scope string_scope.
Definition protocol_constants : list (string * byte) :=
  [("BASIC_TYPE_CONTROLLER", x01);
   ("BASIC_TYPE_ROUTING_SLAVE", x04);
   ("BASIC_TYPE_SLAVE", x03);
   ("BASIC_TYPE_STATIC_CONTROLLER", x02);
   ("GENERIC_TYPE_GENERIC_CONTROLLER", x01);
   ("SPECIFIC_TYPE_GENERIC_CONTROLLER_NOT_USED", x00);
   ("SPECIFIC_TYPE_PORTABLE_REMOTE_CONTROLLER", x01);
   ("SPECIFIC_TYPE_PORTABLE_SCENE_CONTROLLER", x02);
   ("SPECIFIC_TYPE_PORTABLE_INSTALLER_TOOL", x03);
   ("SPECIFIC_TYPE_REMOTE_CONTROL_AV", x04);
   ("SPECIFIC_TYPE_REMOTE_CONTROL_SIMPLE", x06);
   ("GENERIC_TYPE_STATIC_CONTROLLER", x02);
   ("SPECIFIC_TYPE_STATIC_CONTROLLER_NOT_USED", x00);
   ("SPECIFIC_TYPE_PC_CONTROLLER", x01);
   ("SPECIFIC_TYPE_SCENE_CONTROLLER", x02);
   ("SPECIFIC_TYPE_STATIC_INSTALLER_TOOL", x03);
   ("SPECIFIC_TYPE_SET_TOP_BOX", x04);
   ("SPECIFIC_TYPE_SUB_SYSTEM_CONTROLLER", x05);
   ("SPECIFIC_TYPE_TV", x06);
   ("SPECIFIC_TYPE_GATEWAY", x07);
   ("GENERIC_TYPE_AV_CONTROL_POINT", x03);
   ("SPECIFIC_TYPE_AV_CONTROL_POINT_NOT_USED", x00);
   ("SPECIFIC_TYPE_DOORBELL", x12);
   ("SPECIFIC_TYPE_SATELLITE_RECEIVER", x04);
   ("SPECIFIC_TYPE_SATELLITE_RECEIVER_V2", x11);
   ("GENERIC_TYPE_DISPLAY", x04);
   ("SPECIFIC_TYPE_DISPLAY_NOT_USED", x00);
   ("SPECIFIC_TYPE_SIMPLE_DISPLAY", x01);
   ("GENERIC_TYPE_NETWORK_EXTENDER", x05);
   ("SPECIFIC_TYPE_NETWORK_EXTENDER_NOT_USED", x00);
   ("SPECIFIC_TYPE_SECURE_EXTENDER", x01);
   ("GENERIC_TYPE_APPLIANCE", x06);
   ("SPECIFIC_TYPE_APPLIANCE_NOT_USED", x00);
   ("SPECIFIC_TYPE_GENERAL_APPLIANCE", x01);
   ("SPECIFIC_TYPE_KITCHEN_APPLIANCE", x02);
   ("SPECIFIC_TYPE_LAUNDRY_APPLIANCE", x03);
   ("GENERIC_TYPE_SENSOR_NOTIFICATION", x07);
   ("SPECIFIC_TYPE_SENSOR_NOTIFICATION_NOT_USED", x00);
   ("SPECIFIC_TYPE_NOTIFICATION_SENSOR", x01);
   ("GENERIC_TYPE_THERMOSTAT", x08);
   ("SPECIFIC_TYPE_THERMOSTAT_NOT_USED", x00);
   ("SPECIFIC_TYPE_SETBACK_SCHEDULE_THERMOSTAT", x03);
   ("SPECIFIC_TYPE_SETBACK_THERMOSTAT", x05);
   ("SPECIFIC_TYPE_SETPOINT_THERMOSTAT", x04);
   ("SPECIFIC_TYPE_THERMOSTAT_GENERAL", x02);
   ("SPECIFIC_TYPE_THERMOSTAT_GENERAL_V2", x06);
   ("SPECIFIC_TYPE_THERMOSTAT_HEATING", x01);
   ("GENERIC_TYPE_WINDOW_COVERING", x09);
   ("SPECIFIC_TYPE_WINDOW_COVERING_NOT_USED", x00);
   ("SPECIFIC_TYPE_SIMPLE_WINDOW_COVERING", x01);
   ("GENERIC_TYPE_REPEATER_SLAVE", x0f);
   ("SPECIFIC_TYPE_REPEATER_SLAVE_NOT_USED", x00);
   ("SPECIFIC_TYPE_REPEATER_SLAVE", x01);
   ("SPECIFIC_TYPE_VIRTUAL_NODE", x02);
   ("GENERIC_TYPE_SWITCH_BINARY", x10);
   ("SPECIFIC_TYPE_SWITCH_BINARY_NOT_USED", x00);
   ("SPECIFIC_TYPE_POWER_SWITCH_BINARY", x01);
   ("SPECIFIC_TYPE_SCENE_SWITCH_BINARY", x03);
   ("SPECIFIC_TYPE_POWER_STRIP", x04);
   ("SPECIFIC_TYPE_SIREN", x05);
   ("SPECIFIC_TYPE_VALVE_OPEN_CLOSE", x06);
   ("SPECIFIC_TYPE_COLOR_TUNABLE_BINARY", x02);
   ("SPECIFIC_TYPE_IRRIGATION_CONTROLLER", x07);
   ("GENERIC_TYPE_SWITCH_MULTILEVEL", x11);
   ("SPECIFIC_TYPE_SWITCH_MULTILEVEL_NOT_USED", x00);
   ("SPECIFIC_TYPE_CLASS_A_MOTOR_CONTROL", x05);
   ("SPECIFIC_TYPE_CLASS_B_MOTOR_CONTROL", x06);
   ("SPECIFIC_TYPE_CLASS_C_MOTOR_CONTROL", x07);
   ("SPECIFIC_TYPE_MOTOR_MULTIPOSITION", x03);
   ("SPECIFIC_TYPE_POWER_SWITCH_MULTILEVEL", x01);
   ("SPECIFIC_TYPE_SCENE_SWITCH_MULTILEVEL", x04);
   ("SPECIFIC_TYPE_FAN_SWITCH", x08);
   ("SPECIFIC_TYPE_COLOR_TUNABLE_MULTILEVEL", x02);
   ("GENERIC_TYPE_SWITCH_REMOTE", x12);
   ("SPECIFIC_TYPE_SWITCH_REMOTE_NOT_USED", x00);
   ("SPECIFIC_TYPE_SWITCH_REMOTE_BINARY", x01);
   ("SPECIFIC_TYPE_SWITCH_REMOTE_MULTILEVEL", x02);
   ("SPECIFIC_TYPE_SWITCH_REMOTE_TOGGLE_BINARY", x03);
   ("SPECIFIC_TYPE_SWITCH_REMOTE_TOGGLE_MULTILEVEL", x04);
   ("GENERIC_TYPE_SWITCH_TOGGLE", x13);
   ("SPECIFIC_TYPE_SWITCH_TOGGLE_NOT_USED", x00);
   ("SPECIFIC_TYPE_SWITCH_TOGGLE_BINARY", x01);
   ("SPECIFIC_TYPE_SWITCH_TOGGLE_MULTILEVEL", x02);
   ("GENERIC_TYPE_ZIP_NODE", x15);
   ("SPECIFIC_TYPE_ZIP_NODE_NOT_USED", x00);
   ("SPECIFIC_TYPE_ZIP_ADV_NODE", x02);
   ("SPECIFIC_TYPE_ZIP_TUN_NODE", x01);
   ("GENERIC_TYPE_VENTILATION", x16);
   ("SPECIFIC_TYPE_VENTILATION_NOT_USED", x00);
   ("SPECIFIC_TYPE_RESIDENTIAL_HRV", x01);
   ("GENERIC_TYPE_SECURITY_PANEL", x17);
   ("SPECIFIC_TYPE_SECURITY_PANEL_NOT_USED", x00);
   ("SPECIFIC_TYPE_ZONED_SECURITY_PANEL", x01);
   ("GENERIC_TYPE_WALL_CONTROLLER", x18);
   ("SPECIFIC_TYPE_WALL_CONTROLLER_NOT_USED", x00);
   ("SPECIFIC_TYPE_BASIC_WALL_CONTROLLER", x01);
   ("GENERIC_TYPE_SENSOR_BINARY", x20);
   ("SPECIFIC_TYPE_SENSOR_BINARY_NOT_USED", x00);
   ("SPECIFIC_TYPE_ROUTING_SENSOR_BINARY", x01);
   ("GENERIC_TYPE_SENSOR_MULTILEVEL", x21);
   ("SPECIFIC_TYPE_SENSOR_MULTILEVEL_NOT_USED", x00);
   ("SPECIFIC_TYPE_ROUTING_MULTILEVEL_SENSOR", x01);
   ("SPECIFIC_TYPE_CHIMNEY_FAN", x02);
   ("GENERIC_TYPE_METER_PULSE", x30);
   ("SPECIFIC_TYPE_METER_PULSE_NOT_USED", x00);
   ("GENERIC_TYPE_METER", x31);
   ("SPECIFIC_TYPE_METER_NOT_USED", x00);
   ("SPECIFIC_TYPE_SIMPLE_METER", x01);
   ("SPECIFIC_TYPE_ADV_ENERGY_CONTROL", x02);
   ("SPECIFIC_TYPE_WHOLE_HOME_METER_SIMPLE", x03);
   ("GENERIC_TYPE_ENTRY_CONTROL", x40);
   ("SPECIFIC_TYPE_ENTRY_CONTROL_NOT_USED", x00);
   ("SPECIFIC_TYPE_DOOR_LOCK", x01);
   ("SPECIFIC_TYPE_ADVANCED_DOOR_LOCK", x02);
   ("SPECIFIC_TYPE_SECURE_KEYPAD_DOOR_LOCK", x03);
   ("SPECIFIC_TYPE_SECURE_KEYPAD_DOOR_LOCK_DEADBOLT", x04);
   ("SPECIFIC_TYPE_SECURE_DOOR", x05);
   ("SPECIFIC_TYPE_SECURE_GATE", x06);
   ("SPECIFIC_TYPE_SECURE_BARRIER_ADDON", x07);
   ("SPECIFIC_TYPE_SECURE_BARRIER_OPEN_ONLY", x08);
   ("SPECIFIC_TYPE_SECURE_BARRIER_CLOSE_ONLY", x09);
   ("SPECIFIC_TYPE_SECURE_LOCKBOX", x0a);
   ("SPECIFIC_TYPE_SECURE_KEYPAD", x0b);
   ("GENERIC_TYPE_SEMI_INTEROPERABLE", x50);
   ("SPECIFIC_TYPE_SEMI_INTEROPERABLE_NOT_USED", x00);
   ("SPECIFIC_TYPE_ENERGY_PRODUCTION", x01);
   ("GENERIC_TYPE_SENSOR_ALARM", xa1);
   ("SPECIFIC_TYPE_SENSOR_ALARM_NOT_USED", x00);
   ("SPECIFIC_TYPE_ADV_ZENSOR_NET_ALARM_SENSOR", x05);
   ("SPECIFIC_TYPE_ADV_ZENSOR_NET_SMOKE_SENSOR", x0a);
   ("SPECIFIC_TYPE_BASIC_ROUTING_ALARM_SENSOR", x01);
   ("SPECIFIC_TYPE_BASIC_ROUTING_SMOKE_SENSOR", x06);
   ("SPECIFIC_TYPE_BASIC_ZENSOR_NET_ALARM_SENSOR", x03);
   ("SPECIFIC_TYPE_BASIC_ZENSOR_NET_SMOKE_SENSOR", x08);
   ("SPECIFIC_TYPE_ROUTING_ALARM_SENSOR", x02);
   ("SPECIFIC_TYPE_ROUTING_SMOKE_SENSOR", x07);
   ("SPECIFIC_TYPE_ZENSOR_NET_ALARM_SENSOR", x04);
   ("SPECIFIC_TYPE_ZENSOR_NET_SMOKE_SENSOR", x09);
   ("SPECIFIC_TYPE_ALARM_SENSOR", x0b);
   ("GENERIC_TYPE_NON_INTEROPERABLE", xff);
   ("SPECIFIC_TYPE_NON_INTEROPERABLE_NOT_USED", x00)].
(** mandatory.go:7-1014: names of the generic and specific constants, class ids *)
Definition mandatory_go : list (string * string * list byte) :=
  [("GENERIC_TYPE_DISPLAY", "SPECIFIC_TYPE_SIMPLE_DISPLAY", [x5e; x85; x59; x5a; x72; x73; x86]);
   ("GENERIC_TYPE_ENTRY_CONTROL", "SPECIFIC_TYPE_SECURE_BARRIER_ADDON", [x5e; x5a; x72; x73; x86]);
   ("GENERIC_TYPE_ENTRY_CONTROL", "SPECIFIC_TYPE_SECURE_BARRIER_CLOSE_ONLY", [x5e; x5a; x72; x73; x86]);
   ("GENERIC_TYPE_ENTRY_CONTROL", "SPECIFIC_TYPE_SECURE_BARRIER_OPEN_ONLY", [x5e; x5a; x72; x73; x86]);
   ("GENERIC_TYPE_ENTRY_CONTROL", "SPECIFIC_TYPE_SECURE_DOOR", [x5e; x5a; x72; x73; x86]);
   ("GENERIC_TYPE_ENTRY_CONTROL", "SPECIFIC_TYPE_SECURE_GATE", [x5e; x5a; x72; x73; x86]);
   ("GENERIC_TYPE_ENTRY_CONTROL", "SPECIFIC_TYPE_SECURE_KEYPAD", [x5e; x5a; x72; x73; x86]);
   ("GENERIC_TYPE_ENTRY_CONTROL", "SPECIFIC_TYPE_SECURE_KEYPAD_DOOR_LOCK", [x5e; x5a; x72; x73; x86]);
   ("GENERIC_TYPE_ENTRY_CONTROL", "SPECIFIC_TYPE_SECURE_LOCKBOX", [x5e; x5a; x72; x73; x86]);
   ("GENERIC_TYPE_GENERIC_CONTROLLER", "SPECIFIC_TYPE_PORTABLE_REMOTE_CONTROLLER", [x5e; x85; x59; x5a; x72; x73; x86]);
   ("GENERIC_TYPE_GENERIC_CONTROLLER", "SPECIFIC_TYPE_REMOTE_CONTROL_AV", [x5e; x85; x59; x5a; x72; x73; x86]);
   ("GENERIC_TYPE_GENERIC_CONTROLLER", "SPECIFIC_TYPE_REMOTE_CONTROL_SIMPLE", [x5e; x85; x59; x5b; x5a; x72; x73; x86]);
   ("GENERIC_TYPE_METER", "SPECIFIC_TYPE_SIMPLE_METER", [x5e; x85; x59; x56; x5a; x72; x32; x73; x86]);
   ("GENERIC_TYPE_METER", "SPECIFIC_TYPE_WHOLE_HOME_METER_SIMPLE", [x5e; x85; x59; x56; x5a; x72; x32; x73; x86]);
   ("GENERIC_TYPE_REPEATER_SLAVE", "SPECIFIC_TYPE_REPEATER_SLAVE", [x5e; x85; x59; x5a; x72; x73; x86]);
   ("GENERIC_TYPE_SENSOR_MULTILEVEL", "SPECIFIC_TYPE_ROUTING_MULTILEVEL_SENSOR", [x5e; x85; x59; x5a; x72; x31; x73; x86]);
   ("GENERIC_TYPE_SENSOR_NOTIFICATION", "SPECIFIC_TYPE_NOTIFICATION_SENSOR", [x5e; x85; x59; x5a; x72; x71; x73; x86]);
   ("GENERIC_TYPE_STATIC_CONTROLLER", "SPECIFIC_TYPE_GATEWAY", [x22; x85; x59; x56; x5a; x72; x73; x98; x86]);
   ("GENERIC_TYPE_STATIC_CONTROLLER", "SPECIFIC_TYPE_PC_CONTROLLER", [x5e; x22; x85; x59; x56; x5a; x72; x73; x98; x86]);
   ("GENERIC_TYPE_STATIC_CONTROLLER", "SPECIFIC_TYPE_SET_TOP_BOX", [x5e; x22; x59; x85; x56; x5a; x72; x73; x98; x86]);
   ("GENERIC_TYPE_STATIC_CONTROLLER", "SPECIFIC_TYPE_SUB_SYSTEM_CONTROLLER", [x5e; x22; x85; x59; x56; x5a; x72; x73; x86]);
   ("GENERIC_TYPE_STATIC_CONTROLLER", "SPECIFIC_TYPE_TV", [x5e; x22; x85; x59; x56; x5a; x72; x73; x98; x86]);
   ("GENERIC_TYPE_SWITCH_BINARY", "SPECIFIC_TYPE_IRRIGATION_CONTROLLER", [x5e; x85; x59; x20; x25; x5a; x72; x73; x86]);
   ("GENERIC_TYPE_SWITCH_BINARY", "SPECIFIC_TYPE_POWER_STRIP", [x5e; x59; x85; x20; x25; x5a; x72; x60; x85; x73; x86]);
   ("GENERIC_TYPE_SWITCH_BINARY", "SPECIFIC_TYPE_POWER_SWITCH_BINARY", [x5e; x85; x59; x20; x25; x5a; x72; x73; x86]);
   ("GENERIC_TYPE_SWITCH_BINARY", "SPECIFIC_TYPE_SIREN", [x5e; x85; x59; x20; x25; x5a; x72; x73; x86]);
   ("GENERIC_TYPE_SWITCH_BINARY", "SPECIFIC_TYPE_VALVE_OPEN_CLOSE", [x5e; x85; x59; x20; x25; x5a; x72; x73; x86]);
   ("GENERIC_TYPE_SWITCH_MULTILEVEL", "SPECIFIC_TYPE_CLASS_A_MOTOR_CONTROL", [x5e; x85; x59; x20; x25; x5a; x72; x26; x73; x86]);
   ("GENERIC_TYPE_SWITCH_MULTILEVEL", "SPECIFIC_TYPE_CLASS_B_MOTOR_CONTROL", [x5e; x85; x59; x20; x25; x5a; x72; x26; x73; x86]);
   ("GENERIC_TYPE_SWITCH_MULTILEVEL", "SPECIFIC_TYPE_CLASS_C_MOTOR_CONTROL", [x5e; x85; x59; x20; x25; x5a; x72; x26; x73; x86]);
   ("GENERIC_TYPE_SWITCH_MULTILEVEL", "SPECIFIC_TYPE_FAN_SWITCH", [x5e; x85; x59; x20; x5a; x72; x26; x73; x86]);
   ("GENERIC_TYPE_SWITCH_MULTILEVEL", "SPECIFIC_TYPE_POWER_SWITCH_MULTILEVEL", [x5e; x85; x59; x20; x5a; x72; x26; x73; x86]);
   ("GENERIC_TYPE_THERMOSTAT", "SPECIFIC_TYPE_SETBACK_THERMOSTAT", [x5e; x59; x85; x20; x5a; x72; x73; x86]);
   ("GENERIC_TYPE_THERMOSTAT", "SPECIFIC_TYPE_THERMOSTAT_GENERAL_V2", [x5e; x85; x59; x20; x5a; x72; x73; x86]);
   ("GENERIC_TYPE_WALL_CONTROLLER", "SPECIFIC_TYPE_BASIC_WALL_CONTROLLER", [x5e; x85; x59; x5b; x5a; x72; x73; x86])].
Definition mandatory_txt : list string :=
  ["AV control point";
   "# AV control point - GENERIC_TYPE_AV_CONTROL_POINT - SPECIFIC_TYPE_NOT_USED";
   "- Z-Wave Plus Info";
   "- Association (version 2 or newer)";
   "- Association Group Information";
   "//- Battery – (If LSS)";
   "- Device Reset Locally (if the device can be reset, refer to [1])";
   "- Manufacturer Specific";
   "- Power Level";
   "- Simple AV Control";
   "- Version (v2 or newer)";
   "";
   "Motorized barrier devices";
   "# Motorized Barrier - GDO - GENERIC_TYPE_ENTRY_CONTROL - SPECIFIC_TYPE_SECURE_DOOR";
   "# Motorized Barrier - Gate - GENERIC_TYPE_ENTRY_CONTROL - SPECIFIC_TYPE_SECURE_GATE";
   "# Motorized Barrier - Add-ON - GENERIC_TYPE_ENTRY_CONTROL - SPECIFIC_TYPE_SECURE_BARRIER_ADDON";
   "# Motorized Barrier - Open Only - GENERIC_TYPE_ENTRY_CONTROL - SPECIFIC_TYPE_SECURE_BARRIER_OPEN_ONLY";
   "# Motorized Barrier - Close Only - GENERIC_TYPE_ENTRY_CONTROL - SPECIFIC_TYPE_SECURE_BARRIER_CLOSE_ONLY";
   "- Z-Wave Plus Info";
   "//- Battery (If LSS)";
   "- Device Reset Locally (*)";
   "- Manufacturer Specific";
   "- Power Level";
   "- Version (v2 or newer)";
   "+ Z-Wave Plus Info";
   "+ Security";
   "++ Z-Wave Plus Info";
   "++ Application Status";
   "++ Association(v2 or newer)";
   "++ Association Group Information";
   "++ Barrier Operator";
   "//++ Battery (If LSS)";
   "++ Device Reset Locally (*)";
   "++ Manufacturer Specific";
   "++ Notification (v4 or newer)";
   "++ Power Level";
   "++ Version (v2 or newer)";
   "";
   "Central controller";
   "# Central Controller - GENERIC_TYPE_STATIC_CONTROLLER - SPECIFIC_TYPE_PC_CONTROLLER";
   "- Z-Wave Plus Info";
   "- Application Status";
   "- Association (version 2 or newer)";
   "- Association Group Information";
   "- CRC16";
   "- Device Reset Locally (if the device can be reset, refer to [1])";
   "- Manufacturer Specific";
   "- Power Level";
   "- Security";
   "- Version (v2 or newer)";
   "";
   "Display - simple";
   "# Display - Simple - GENERIC_TYPE_DISPLAY - SPECIFIC_TYPE_SIMPLE_DISPLAY";
   "- Z-Wave Plus Info";
   "- Association (version 2 or newer)";
   "- Association Group Information";
   "//- Battery – (if LSS)";
   "- Device Reset Locally (if the device can be reset, refer to [1])";
   "- Manufacturer Specific";
   "- Power Level";
   "- Screen Meta Data";
   "- Version (v2 or newer)";
   "";
   "Door lock - Keypad";
   "# Door Lock - Keypad - GENERIC_TYPE_ENTRY_CONTROL - SPECIFIC_TYPE_SECURE_KEYPAD_DOOR_LOCK";
   "- Z-Wave Plus Info";
   "//- Battery (If LSS)";
   "- Device Reset Locally (*)";
   "- Manufacturer Specific";
   "- Power Level";
   "- Version (v2 or newer)";
   "+ Z-Wave Plus Info";
   "+ Security";
   "++ Z-Wave Plus Info";
   "++ Association(v2 or newer)";
   "++ Association Group Information";
   "//++ Battery (If LSS)";
   "++ Device Reset Locally (*)";
   "++ Door Lock";
   "++ Manufacturer Specific";
   "++ Power Level";
   "++ User Code (***)";
   "++ Version (v2 or newer)";
   "";
   "Entry control keypad";
   "# Entry Control Keypad - GENERIC_TYPE_ENTRY_CONTROL - SPECIFIC_TYPE_SECURE_KEYPAD";
   "- Z-Wave Plus Info";
   "//- Battery (If LSS or RSS)";
   "- Device Reset Locally (*)";
   "- Manufacturer Specific";
   "- Power Level";
   "- Version (v2 or newer)";
   "+ Z-Wave Plus Info";
   "+ Security";
   "++ Z-Wave Plus Info";
   "++ Association(v2 or newer)";
   "++ Association Group Information";
   "//++ Battery (If LSS or RSS)";
   "++ Device Reset Locally (*)";
   "++ Entry Control";
   "++ Manufacturer Specific";
   "++ Power Level";
   "++ Version (v2 or newer)";
   "//++ Wake Up (v3 or newer, if RSS)";
   "";
   "Fan switch";
   "# Fan Switch - GENERIC_TYPE_SWITCH_MULTILEVEL - SPECIFIC_TYPE_FAN_SWITCH";
   "- Z-Wave Plus Info";
   "- Association (version 2 or newer)";
   "- Association Group Information";
   "- Basic";
   "- Device Reset Locally (if the device can be reset, refer to [1])";
   "- Manufacturer Specific";
   "- Multilevel Switch";
   "- Power Level";
   "- Version (v2 or newer)";
   "";
   "Gateway";
   "# Gateway - GENERIC_TYPE_STATIC_CONTROLLER - SPECIFIC_TYPE_GATEWAY";
   "Z-Wave Plus Info";
   "- Application Status";
   "- Association (version 2 or newer)";
   "- Association Group Information";
   "- CRC16";
   "- Device Reset Locally (if the device can be reset, refer to [1])";
   "- Manufacturer Specific";
   "- Power Level";
   "- Security";
   "- Version (v2 or newer)";
   "";
   "Irrigation control";
   "# Irrigation Control - GENERIC_TYPE_SWITCH_BINARY - SPECIFIC_TYPE_IRRIGATION_CONTROLLER";
   "- Z-Wave Plus Info";
   "- Association (version 2 or newer)";
   "- Association Group Information";
   "- Basic";
   "- Binary Switch";
   "- Device Reset Locally (if the device can be reset, refer to [1])";
   "- Manufacturer Specific";
   "- Power Level";
   "- Version (v2 or newer)";
   "";
   "Light dimmer switch";
   "# Light Dimmer Switch - GENERIC_TYPE_SWITCH_MULTILEVEL - SPECIFIC_TYPE_POWER_SWITCH_MULTILEVEL";
   "- Z-Wave Plus Info";
   "- Association (version 2 or newer)";
   "- Association Group Information";
   "- Basic";
   "- Device Reset Locally (if the device can be reset, refer to [1])";
   "- Manufacturer Specific";
   "- Multilevel Switch";
   "- Power Level";
   "- Version (v2 or newer)";
   "";
   "Lockbox";
   "# Lockbox - GENERIC_TYPE_ENTRY_CONTROL - SPECIFIC_TYPE_SECURE_LOCKBOX";
   "- Z-Wave Plus Info";
   "//- Battery (If LSS, RSS or RPC)";
   "- Device Reset Locally (*)";
   "- Manufacturer Specific";
   "- Power Level";
   "- Version (v2 or newer)";
   "//- Wake Up (If RSS or RPC)";
   "+ Z-Wave Plus Info";
   "+ Security";
   "++ Z-Wave Plus Info";
   "++ Association(v2 or newer)";
   "++ Association Group Information";
   "++ Device Reset Locally (*)";
   "++ Door Lock";
   "//++ Battery (If LSS, RSS or RPC)";
   "++ Manufacturer Specific";
   "++ Notification (v3 or newer)";
   "++ Power Level";
   "++ Version (v2 or newer)";
   "//++ Wake Up (If RSS or RPC)";
   "";
   "On/Off power switch";
   "# On/Off Power Switch - GENERIC_TYPE_SWITCH_BINARY - SPECIFIC_TYPE_POWER_SWITCH_BINARY";
   "- Z-Wave Plus Info";
   "- Association (version 2 or newer)";
   "- Association Group Information";
   "- Basic";
   "//- Battery (If LSS)";
   "- Binary Switch";
   "- Device Reset Locally (if the device can be reset, refer to [1])";
   "- Manufacturer Specific";
   "- Power Level";
   "- Version (v2 or newer)";
   "";
   "Power strip";
   "# Power Strip - GENERIC_TYPE_SWITCH_BINARY - SPECIFIC_TYPE_POWER_STRIP";
   "- Z-Wave Plus Info";
   "- Association Group Information";
   "- Association (version 2 or newer)";
   "- Basic";
   "- Binary Switch";
   "- Device Reset Locally (if the device can be reset, refer to [1])";
   "- Manufacturer Specific";
   "- Multi Channel (version 4 or newer)";
   "- Multichannel Association (version 3 or newer)";
   "- Power Level";
   "- Version (v2 or newer)";
   "";
   "Remote control - AV";
   "# Remote Control - AV - GENERIC_TYPE_GENERIC_CONTROLLER - SPECIFIC_TYPE_REMOTE_CONTROL_AV";
   "- Z-Wave Plus Info";
   "- Association (version 2 or newer)";
   "- Association Group Information";
   "//- Battery";
   "- Device Reset Locally (if the device can be reset, refer to [1])";
   "- Manufacturer Specific";
   "- Power Level";
   "- Version (v2 or newer)";
   "//- Wake Up (version 2 or newer)";
   "";
   "Remote controller - Multi purpose";
   "# Remote Controller - Multi Purpose - GENERIC_TYPE_GENERIC_CONTROLLER - SPECIFIC_TYPE_PORTABLE_REMOTE_CONTROLLER";
   "- Z-Wave Plus Info";
   "- Association (version 2 or newer)";
   "- Association Group Information";
   "//- Battery";
   "- Device Reset Locally (if the device can be reset, refer to [1])";
   "- Manufacturer Specific";
   "- Power Level";
   "- Version (v2 or newer)";
   "//- Wake Up (version 2 or newer)";
   "";
   "Remote control - Simple";
   "# Remote Control - Simple - GENERIC_TYPE_GENERIC_CONTROLLER - SPECIFIC_TYPE_REMOTE_CONTROL_SIMPLE";
   "- Z-Wave Plus Info";
   "- Association (version 2 or newer)";
   "- Association Group Information";
   "//- Battery";
   "- Central Scene";
   "- Device Reset Locally (if the device can be reset, refer to [1])";
   "- Manufacturer Specific";
   "- Power Level";
   "- Version (v2 or newer)";
   "//- Wake Up (version 2 or newer)";
   "";
   "Repeater";
   "# Repeater - GENERIC_TYPE_REPEATER_SLAVE - SPECIFIC_TYPE_REPEATER_SLAVE";
   "- Z-Wave Plus Info";
   "- Association (version 2 or newer)";
   "- Association Group Information";
   "- Device Reset Locally (if the device can be reset, refer to [1])";
   "- Manufacturer Specific";
   "- Power Level";
   "- Version (v2 or newer)";
   "";
   "Sensor - Notification";
   "# Sensor - Notification - GENERIC_TYPE_SENSOR_NOTIFICATION - SPECIFIC_TYPE_NOTIFICATION_SENSOR";
   "- Z-Wave Plus Info";
   "- Association (version 2 or newer)";
   "- Association Group Information";
   "//- Battery – Only if battery operated";
   "- Device Reset Locally (if the device can be reset, refer to [1])";
   "- Manufacturer Specific";
   "- Notification";
   "- Power Level";
   "- Version (v2 or newer)";
   "//- Wake Up (version 2 or newer) – Only if battery operated";
   "";
   "Sensor - Multilevel";
   "# Sensor - Multilevel - GENERIC_TYPE_SENSOR_MULTILEVEL - SPECIFIC_TYPE_ROUTING_MULTILEVEL_SENSOR";
   "- Z-Wave Plus Info";
   "- Association (version 2 or newer)";
   "- Association Group Information";
   "//- Battery – Only if battery operated";
   "- Device Reset Locally (if the device can be reset, refer to [1])";
   "- Manufacturer Specific";
   "- Multilevel Sensor";
   "- Power Level";
   "- Version (v2 or newer)";
   "//- Wake Up (version 2 or newer) – if RSS or RPC";
   "";
   "Set top box";
   "# Set Top Box - GENERIC_TYPE_STATIC_CONTROLLER - SPECIFIC_TYPE_SET_TOP_BOX";
   "- Z-Wave Plus Info";
   "- Application Status";
   "- Association Group Information";
   "- Association (version 2 or newer)";
   "- CRC16 - if CSC";
   "- Device Reset Locally (if the device can be reset, refer to [1])";
   "- Manufacturer Specific";
   "- Power Level";
   "- Security - if CSC";
   "- Simple AV";
   "- Version (v2 or newer)";
   "";
   "Siren";
   "# Siren - GENERIC_TYPE_SWITCH_BINARY - SPECIFIC_TYPE_SIREN";
   "- Z-Wave Plus Info";
   "- Association (version 2 or newer)";
   "- Association Group Information";
   "- Basic";
   "//- Battery - Only if battery operated";
   "- Binary Switch";
   "- Device Reset Locally (if the device can be reset, refer to [1])";
   "- Manufacturer Specific";
   "- Power Level";
   "- Version (v2 or newer)";
   "";
   "Sub energy meter";
   "# Sub Energy Meter - GENERIC_TYPE_METER - SPECIFIC_TYPE_SIMPLE_METER";
   "- Z-Wave Plus Info";
   "- Association (version 2 or newer)";
   "- Association Group Information";
   "//- Battery (if RSS)";
   "- CRC16";
   "- Device Reset Locally (if the device can be reset, refer to [1])";
   "- Manufacturer Specific";
   "- Meter (version 2 or newer)";
   "- Power Level";
   "- Version (v2 or newer)";
   "";
   "Sub system controller";
   "# Sub System Controller - GENERIC_TYPE_STATIC_CONTROLLER - SPECIFIC_TYPE_SUB_SYSTEM_CONTROLLER";
   "- Z-Wave Plus Info";
   "- Application Status";
   "- Association (version 2 or newer)";
   "- Association Group Information";
   "- CRC16";
   "- Device Reset Locally (if the device can be reset, refer to [1])";
   "- Manufacturer Specific";
   "- Power Level";
   "- Version (v2 or newer)";
   "";
   "Thermostat - HVAC";
   "# Thermostat - HVAC - GENERIC_TYPE_THERMOSTAT - SPECIFIC_TYPE_THERMOSTAT_GENERAL_V2";
   "- Z-Wave Plus Info";
   "- Association (version 2 or newer)";
   "- Association Group Information";
   "- Basic";
   "//- Battery – If battery operated";
   "- Device Reset Locally (if the device can be reset, refer to [1])";
   "- Manufacturer Specific";
   "- Power Level";
   "- Thermostat Set Point";
   "- Thermostat Mode";
   "- Version (v2 or newer)";
   "//- Wake Up (version 2 or newer) – If RSS or RPC";
   "";
   "Thermostat - Setback";
   "# Thermostat - Setback - GENERIC_TYPE_THERMOSTAT - SPECIFIC_TYPE_SETBACK_THERMOSTAT";
   "- Z-Wave Plus Info";
   "- Association Group Information";
   "- Association (version 2 or newer)";
   "- Basic";
   "//- Battery – If battery operated";
   "- Device Reset Locally (if the device can be reset, refer to [1])";
   "- Manufacturer Specific";
   "- Power Level";
   "- Thermostat Setback";
   "//- Wake Up (version 2 or newer) – If RSS or RPC";
   "- Version (v2 or newer)";
   "";
   "TV";
   "# TV - GENERIC_TYPE_STATIC_CONTROLLER - SPECIFIC_TYPE_TV";
   "- Z-Wave Plus Info";
   "- Application Status";
   "- Association (version 2 or newer)";
   "- Association Group Information";
   "- CRC16 – if CSC";
   "- Device Reset Locally (if the device can be reset, refer to [1])";
   "- Manufacturer Specific";
   "- Power Level";
   "- Security - if CSC";
   "- Simple AV";
   "- Version (v2 or newer)";
   "";
   "Valve - Open/Close";
   "# Valve - open/close - GENERIC_TYPE_SWITCH_BINARY - SPECIFIC_TYPE_VALVE_OPEN_CLOSE";
   "- Z-Wave Plus Info";
   "- Association (version 2 or newer)";
   "- Association Group Information";
   "- Basic";
   "//- Battery";
   "- Binary Switch";
   "- Device Reset Locally (if the device can be reset, refer to [1])";
   "- Manufacturer Specific";
   "- Power Level";
   "- Version (v2 or newer)";
   "";
   "Wall controller";
   "# Wall Controller - GENERIC_TYPE_WALL_CONTROLLER - SPECIFIC_TYPE_BASIC_WALL_CONTROLLER";
   "- Z-Wave Plus Info";
   "- Association (version 2 or newer)";
   "- Association Group Information";
   "//-  Battery – (if PS or RSS)";
   "- Central Scene";
   "- Device Reset Locally (if the device can be reset, refer to [1])";
   "- Manufacturer Specific";
   "- Power Level";
   "- Version (v2 or newer)";
   "//- Wake Up (version 2 or newer) – (if PS or RSS)";
   "";
   "Whole home meter - Simple";
   "# Whole Home Meter - Simple - GENERIC_TYPE_METER - SPECIFIC_TYPE_WHOLE_HOME_METER_SIMPLE";
   "- Z-Wave Plus Info";
   "- Association (version 2 or newer)";
   "- Association Group Information";
   "//- Battery– Only if battery operated";
   "- CRC16";
   "- Device Reset Locally (if the device can be reset, refer to [1])";
   "- Manufacturer Specific";
   "- Meter (version 2 or newer)";
   "- Power Level";
   "- Version (v2 or newer)";
   "";
   "Window covering - No position/endpoint";
   "# Window Covering - No Position/Endpoint - GENERIC_TYPE_SWITCH_MULTILEVEL - SPECIFIC_TYPE_CLASS_A_MOTOR_CONTROL";
   "- Z-Wave Plus Info";
   "- Association (version 2 or newer)";
   "- Association Group Information";
   "- Basic";
   "//- Battery – If using batteries";
   "- Binary Switch";
   "- Device Reset Locally (if the device can be reset, refer to [1])";
   "- Manufacturer Specific";
   "- Multilevel Switch (v3 or newer)";
   "- Power Level";
   "- Version (v2 or newer)";
   "";
   "Window covering - Endpoint aware";
   "# Window Covering - Endpoint Aware - GENERIC_TYPE_SWITCH_MULTILEVEL - SPECIFIC_TYPE_CLASS_B_MOTOR_CONTROL";
   "- Z-Wave Plus Info";
   "- Association (version 2 or newer)";
   "- Association Group Information ";
   "- Basic";
   "//- Battery – If using batteries";
   "- Binary Switch";
   "- Device Reset Locally (if the device can be reset, refer to [1])";
   "- Manufacturer Specific";
   "- Multilevel Switch (v3 or newer)";
   "- Power Level";
   "- Version (v2 or newer)";
   "";
   "Window covering - Position/Endpoint aware";
   "# Window Covering - Position/Endpoint Aware - GENERIC_TYPE_SWITCH_MULTILEVEL - SPECIFIC_TYPE_CLASS_C_MOTOR_CONTROL";
   "- Z-Wave Plus Info";
   "- Association (version 2 or newer)";
   "- Association Group Information";
   "- Basic";
   "//- Battery – If using batteries";
   "- Binary Switch";
   "- Device Reset Locally (if the device can be reset, refer to [1])";
   "- Manufacturer Specific";
   "- Multilevel Switch (v3 or newer)";
   "- Power Level";
   "- Version (v2 or newer)";
   ""].
