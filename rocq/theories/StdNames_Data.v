(* Generated by tools/gen_names.py.  [std_names]: src/uecho/std/objects_mra.c:55-1270
   uecho_database_addstandardobjects, in file order: group code, class code, name, and the code and
   name of each property.  [man_rows]: src/uecho/std/manufacturers.c:23-260
   uecho_database_addstandardmanufactures: code and name. *)
From Coq Require Import String ZArith List.
Import ListNotations.
Open Scope Z_scope.
Local Open Scope string_scope.

Definition std_names : list (Z * Z * string * list (Z * string)) := [
  (0, 0, "Super class", [
    (128, "Operation status");
    (129, "Installation location");
    (129, "Installation location");
    (130, "Standard version information");
    (131, "Identification number");
    (131, "Identification number");
    (132, "Measured instantaneous power consumption");
    (133, "Measured cumulative electric energy consumption");
    (134, "Manufacturer's fault code");
    (135, "Current limit setting");
    (136, "Fault status");
    (137, "Fault description");
    (138, "manufacturer code");
    (138, "Manufacturer code");
    (139, "Business facility code");
    (140, "Product code");
    (141, "Production number");
    (142, "Production date");
    (143, "Power-saving operation setting");
    (147, "Location information");
    (147, "Location information");
    (147, "Remote control setting");
    (147, "Remote control setting");
    (151, "Current time setting");
    (152, "Current date setting");
    (153, "Power limit setting");
    (154, "Cumulative operating time");
    (157, "Status change announcement property map");
    (158, "Set property map");
    (159, "Get property map")]);
  (14, 240, "Node profile", [
    (128, "Operating status");
    (130, "Version information");
    (131, "Identification number");
    (136, "Fault status");
    (137, "Fault description");
    (138, "Manufacturer code");
    (139, "Business facility code");
    (140, "Product code");
    (141, "Production number");
    (142, "Production date");
    (157, "Status change announcement property map");
    (158, "Set property map");
    (159, "Get property map");
    (191, "Unique identifier data");
    (211, "Number of self-node instances");
    (212, "Number of self-node classes");
    (213, "Instance list notification");
    (214, "Self-node instance list S");
    (215, "Self-node class list S")]);
  (2, 166, "Hybrid water heater", [
    (176, "Automatic water heating setting");
    (178, "Water heating status");
    (179, "Heater status");
    (182, "Hot water supply mode setting for auxiliary heat source machine");
    (183, "Heater mode setting for auxiliary heat source machine.");
    (184, "Linkage mode setting for solar power generation");
    (185, "Solar power generations utilization time");
    (195, "Hot water supply status");
    (225, "Measured amount of hot water remaining in tank");
    (226, "Tank capacity")]);
  (5, 253, "Switch (supporting JEM-A/HA terminals)", [
    (224, "Connected device")]);
  (2, 114, "Instantaneous water heater", [
    (144, "ON timer reservation setting");
    (145, "ON timer setting");
    (146, "Set value of ON timer relative time");
    (208, "Hot water heating status");
    (209, "Set value of hot water temperature");
    (210, "Hot water warmer setting");
    (212, "Bath water volume setting 4");
    (213, "Bath water volume setting 4 Maximum settable level");
    (214, "Volume setting");
    (215, "Mute setting");
    (218, "Duration of Automatic operation setting");
    (219, "Remaining Automatic operation time");
    (225, "Set value of bath temperature");
    (226, "Bath water heater status");
    (227, "Bath Auto mode setting");
    (228, "Bath additional boil-up operation setting");
    (229, "Bath hot water adding operation setting");
    (230, "Bath water temperature lowering operation setting");
    (231, "Bath hot water volume setting 1");
    (232, "Bath hot water volume setting 2");
    (233, "Bathroom priority setting");
    (233, "Bathroom priority setting");
    (234, "Shower hot water supply status");
    (235, "Kitchen hot water supply status");
    (236, "Hot water warmer ON timer reservation setting");
    (237, "Set value of hot water warmer ON timer time");
    (238, "Bath hot water volume setting 3");
    (239, "Bath operation status monitor")]);
  (3, 206, "Commercial showcase", [
    (176, "Operation mode");
    (176, "Operation mode setting");
    (189, "Used to acquire measurements of discharge temperature.");
    (202, "Group information");
    (202, "Group information");
    (208, "This property indicates the type of the showcase.");
    (209, "This property indicates the type of the showcase door.");
    (210, "This property indicates refrigerator type, such as built-in or separate.");
    (211, "This property indicates the shape of the showcase.");
    (212, "This property indicates the purpose of the showcase, either refrigeration or freezing.");
    (224, "Indicates on/off status of lighting installed inside the showcase.");
    (225, "Indicates ON/OFF status of lighting installed outside the showcase.");
    (226, "Indicates on/off status of compressor when showcase and compressor are a single unit.");
    (227, "Used to acquire internal temperature measurements inside the showcase.");
    (228, "Indicates rated power consumption necessary when showcase is cooling.");
    (229, "Indicates rated power consumption when heater is operating during showcase defrosting.");
    (230, "Indicates rated power consumption when showcase is operating fan motor.");
    (231, "Indicates on/off status of showcases with heater for hot function.");
    (235, "Indicates type of lighting installed inside the showcase.");
    (236, "Indicates type of lighting installed outside the showcase.");
    (237, "Indicates lighting level in % installed inside of the showcase.");
    (238, "Indicates lighting level in % installed outside of the showcase.");
    (239, "Set temperature setting of inside the case and acquire the current setting.")]);
  (0, 208, "Illuminance sensor", [
    (224, "Measured illuminance value 1");
    (225, "Measured illuminance value 2")]);
  (6, 2, "Television", [
    (128, "Operation status");
    (176, "Display control setting");
    (177, "Character string setting acceptance status");
    (178, "Supported character codes");
    (179, "Character string to present to the user");
    (180, "Length of character string accepted")]);
  (2, 126, "EV charger and discharger", [
    (137, "Fault description");
    (140, "Product code");
    (192, "Dischargeable capacity of vehicle mounted battery 1");
    (193, "Dischargeable capacity of vehicle mounted battery 2");
    (193, "Dischargeable capacity of vehicle mounted battery 2");
    (194, "Remaining dischargeable capacity of vehicle mounted battery 1");
    (195, "Remaining dischargeable capacity of vehicle mounted battery 2");
    (195, "Remaining dischargeable capacity of vehicle mounted battery 2");
    (196, "Remaining dischargeable capacity of vehicle mounted battery 3");
    (197, "Rated charge capacity");
    (198, "Rated discharge capacity");
    (199, "Vehicle connection and chargeable/dischargeable status");
    (199, "Vehicle connection and chargeable/dischargeable status");
    (199, "Vehicle connection and chargeable/dischargeable status");
    (200, "Minimum/maximum charging electric energy");
    (201, "Minimum/maximum discharging electric energy");
    (202, "Minimum/maximum charging current");
    (203, "Minimum/maximum discharging current");
    (204, "Charger/Discharger type");
    (205, "Vehicle connection confirmation");
    (206, "Chargeable capacity of vehicle mounted battery");
    (207, "Remaining chargeable capacity of vehicle mounted battery");
    (208, "Used capacity of vehicle mounted battery 1");
    (209, "Used capacity of vehicle mounted battery 2");
    (209, "Used capacity of vehicle mounted battery 2");
    (210, "Rated voltage");
    (211, "Measured instantaneous charging/discharging electric energy");
    (212, "Measured instantaneous charging/discharging current");
    (213, "Measured instantaneous charging/discharging voltage");
    (214, "Measured cumulative amount of discharging electric energy");
    (215, "Cumulative amount of discharging electric energy reset setting");
    (216, "Measured cumulative amount of charging electric energy");
    (217, "Cumulative amount of charging electric energy reset setting");
    (218, "Operation mode setting");
    (218, "Operation mode setting");
    (218, "Operation mode setting");
    (218, "Operation mode setting");
    (219, "System interconnected type");
    (220, "Charging method");
    (220, "Charging method");
    (221, "Discharging method");
    (221, "Discharging method");
    (222, "Purchasing electric power setting");
    (223, "Re-interconnection permission setting");
    (224, "Charging/Discharging electric power setting");
    (225, "Actual operation mode");
    (226, "Remaining stored electricity of vehicle mounted battery1");
    (227, "Remaining stored electricity of vehicle mounted battery2");
    (227, "Remaining stored electricity of vehicle mounted battery2");
    (228, "Remaining stored electricity of vehicle mounted battery3");
    (229, "Maintenance status");
    (230, "Vehicle ID");
    (231, "Charging amount setting 1");
    (233, "Charging amount setting 2");
    (234, "Discharging electric energy setting");
    (235, "Charging electric energy setting");
    (236, "Discharging electric energy setting");
    (237, "Charging current setting");
    (238, "Discharging current setting");
    (239, "Rated voltage (Independent)")]);
  (1, 87, "Package-type commercial air conditioner (outdoor unit)", [
    (171, "Special state");
    (184, "Rated power consumption of outdoor unit");
    (190, "Measured outdoor unit temperature");
    (202, "Group information");
    (219, "Measured power consumption of outdoor unit");
    (221, "Possible power savings for outdoor units");
    (222, "Settings restricting power consumption of outdoor units");
    (223, "Minimum power consumption for restricted outdoor unit")]);
  (0, 18, "Humidity sensor", [
    (224, "Measured value of relative humidity")]);
  (2, 145, "Mono functional lighting", [
    (128, "Operation status");
    (176, "Light level Setting")]);
  (2, 135, "Power distribution board metering", [
    (176, "Master rated capacity");
    (177, "Number of measurement channels (simplex)");
    (178, "Channel range specification for cumulative amount of electric power consumption measurement (simplex)");
    (179, "Measured cumulative amount of electric power consumption list (simplex)");
    (180, "Channel range specification for instantaneous current measurement (simplex)");
    (181, "Measured instantaneous current list (simplex)");
    (182, "Channel range specification for instantaneous power consumption measurement (simplex)");
    (183, "Measured instantaneous power consumption list (simplex)");
    (184, "Number of measurement channels (duplex)");
    (185, "Channel range specification for cumulative amount of electric power consumption measurement (duplex)");
    (186, "Measured cumulative amount of electric power consumption list (duplex)");
    (187, "Channel range specification for instantaneous current measurement (duplex)");
    (188, "Measured instantaneous current list (duplex)");
    (189, "Channel range specification for instantaneous power consumption measurement (duplex)");
    (190, "Measured instantaneous power consumption list (duplex)");
    (192, "Measured cumulative amount of electric energy (normal direction)");
    (193, "Measured cumulative amount of electric energy (reverse direction)");
    (194, "Unit for cumulative amounts of electric energy");
    (195, "Historical data of measured cumulative amounts of electric energy (normal direction)");
    (196, "Historical data of measured cumulative amounts of electric energy (reverse direction)");
    (197, "Day for which the historical data of measured cumulative amounts of electric energy is to be retrieved");
    (198, "Measured instantaneous amount of electric energy");
    (199, "Measured instantaneous currents");
    (200, "Measured instantaneous voltages");
    (208, "Measurement channel 1");
    (209, "Measurement channel 2");
    (210, "Measurement channel 3");
    (211, "Measurement channel 4");
    (212, "Measurement channel 5");
    (213, "Measurement channel 6");
    (214, "Measurement channel 7");
    (215, "Measurement channel 8");
    (216, "Measurement channel 9");
    (217, "Measurement channel 10");
    (218, "Measurement channel 11");
    (219, "Measurement channel 12");
    (220, "Measurement channel 13");
    (221, "Measurement channel 14");
    (222, "Measurement channel 15");
    (223, "Measurement channel 16");
    (224, "Measurement channel 17");
    (225, "Measurement channel 18");
    (226, "Measurement channel 19");
    (227, "Measurement channel 20");
    (228, "Measurement channel 21");
    (229, "Measurement channel 22");
    (230, "Measurement channel 23");
    (231, "Measurement channel 24");
    (232, "Measurement channel 25");
    (233, "Measurement channel 26");
    (234, "Measurement channel 27");
    (235, "Measurement channel 28");
    (236, "Measurement channel 29");
    (237, "Measurement channel 30");
    (238, "Measurement channel 31");
    (239, "Measurement channel 32")]);
  (2, 107, "Electric water heater", [
    (144, "ON timer setting");
    (145, "ON timer setting");
    (176, "Automatic water heating setting");
    (176, "Automatic water heating setting");
    (177, "Automatic water temperature control setting");
    (178, "Water heater status");
    (178, "Water heater status");
    (179, "Water heating temperature setting");
    (180, "Manual water heating stop days setting");
    (181, "Relative time setting value for manual water heating OFF");
    (182, "Tank operation mode setting");
    (192, "Daytime reheating permission setting");
    (192, "Daytime reheating permission setting");
    (193, "Measured temperature of water in water heater");
    (194, "Alarm status");
    (195, "Hot water supply status");
    (196, "Relative time setting for keeping bath temperature");
    (199, "Participation in energy shift");
    (200, "Standard time to start heating");
    (201, "Number of energy shifts");
    (202, "Daytime heating shift time 1");
    (203, "Expected electric energy at daytime heating shift time 1");
    (204, "Consumption of electric energy per hour 1");
    (205, "Daytime heating shift time 2");
    (206, "Expected electric energy at daytime heating shift time 2");
    (207, "Consumption of electric energy per hour 2");
    (209, "Temperature of supplied water setting");
    (211, "Bath water temperature setting");
    (212, "Bath water volume setting4");
    (213, "Bath water volume setting4 maximum settable level");
    (214, "Volume setting");
    (215, "Mute setting");
    (216, "Remaining hot water volume");
    (217, "Surplus electric energy power prediction value");
    (219, "Rated power consumption of H/P unit in wintertime");
    (220, "Rated power consumption of H/P unit in in-between seasons");
    (221, "Rated power consumption of H/P unit in summertime");
    (224, "Bath water volume setting");
    (225, "Measured amount of water remaining in tank");
    (226, "Tank capacity");
    (227, "Automatic Bath Water Heating Mode Setting");
    (228, "Manual bath reheating operation setting");
    (229, "Addition of hot water function setting");
    (229, "Manual bath hot water addition function setting");
    (230, "Slight bath water temperature lowering function setting");
    (230, "Manual lukewarm water temperature lowering function setting.");
    (231, "Bath water volume setting 1");
    (232, "Bath water volume setting 2");
    (233, "Bathroom priority setting");
    (234, "Bath Operation Status Monitor");
    (238, "Bath water volume setting 3")]);
  (2, 144, "General lighting", [
    (128, "Operation status");
    (144, "ON timer reservation setting");
    (145, "ON timer setting");
    (148, "OFF timer reservation setting");
    (149, "Time set by OFF timer");
    (176, "Light level");
    (177, "Light color setting");
    (177, "Light color setting");
    (177, "Light color setting");
    (178, "Light level step setting");
    (179, "Light color step setting");
    (180, "Maximum specifiable values");
    (181, "Maximum value of settable level for night lighting");
    (182, "Lighting mode setting");
    (183, "Light level setting for main lighting");
    (184, "Light level step setting for main lighting");
    (185, "Light level setting for night lighting");
    (186, "Light level step setting for night lighting");
    (187, "Light color setting for main lighting");
    (188, "Light color level step setting for main lighting");
    (189, "Light color setting for night lighting");
    (190, "Light color level step setting for night lighting");
    (191, "Lighting mode status in auto mode");
    (192, "RGB setting for color lighting")]);
  (2, 125, "Storage battery", [
    (131, "Identification number");
    (137, "Fault description");
    (140, "Product code");
    (151, "Current time setting");
    (152, "Current date setting");
    (160, "AC effective capacity (charging)");
    (161, "AC effective capacity (discharging)");
    (162, "AC chargeable capacity");
    (163, "AC dischargeable capacity");
    (164, "AC chargeable electric energy");
    (165, "AC dischargeable electric energy");
    (166, "AC charge upper limit setting");
    (167, "AC discharge lower limit setting");
    (168, "AC measured cumulative charging electric energy");
    (169, "AC measured cumulative discharging electric energy");
    (170, "AC charge amount setting value");
    (171, "AC discharge amount setting value");
    (193, "Charging method");
    (194, "Discharging method");
    (199, "AC rated electric energy");
    (200, "Minimum/maximum charging electric power");
    (200, "Minimum/maximum charging electric power");
    (201, "Minimum/maximum discharging electric power");
    (201, "Minimum/maximum discharging electric power");
    (202, "Minimum/maximum charging current");
    (203, "Minimum/maximum discharging current");
    (204, "Re-interconnection permission setting");
    (205, "Operation permission setting");
    (206, "Independent operation permission setting");
    (207, "Working operation status");
    (207, "Working operation status");
    (208, "Rated electric energy");
    (209, "Rated capacity");
    (210, "Rated voltage");
    (211, "Measured instantaneous charging/discharging electric energy");
    (212, "Measured instantaneous charging/discharging current");
    (213, "Measured instantaneous charging/discharging voltage");
    (214, "Measured cumulative discharging electric energy");
    (215, "Measured cumulative discharging electric energy reset setting");
    (216, "Measured cumulative charging electric energy");
    (217, "Measured cumulative charging electric energy reset setting");
    (218, "Operation mode setting");
    (218, "Operation mode setting");
    (218, "Operation mode setting");
    (218, "Operation mode setting");
    (219, "System-interconnected type");
    (219, "System-interconnected type");
    (220, "Minimum/maximum charging power (Independent)");
    (221, "Minimum/maximum discharging power (Independent)");
    (222, "Minimum/maximum charging current (Independent)");
    (223, "Minimum/maximum discharging current (Independent)");
    (224, "Charging/discharging amount setting 1");
    (224, "Charging/discharging amount setting 1");
    (225, "Charging/discharging amount setting 2");
    (225, "Charging/discharging amount setting 2");
    (226, "Remaining stored electricity 1");
    (227, "Remaining stored electricity 2");
    (228, "Remaining stored electricity 3");
    (229, "Battery state of health");
    (230, "Battery type");
    (231, "Charging amount setting 1");
    (232, "Discharging amount setting 1");
    (233, "Charging amount setting 2");
    (234, "Discharging amount setting 2");
    (235, "Charging electric energy setting");
    (236, "Discharging electric energy setting");
    (237, "Charging current setting");
    (238, "Discharging current setting");
    (239, "Rated voltage (Independent)")]);
  (1, 86, "Package-type commercial air conditioner (indoor unit) (except those for facilities)", [
    (128, "Operation status");
    (172, "Thermostat state");
    (174, "Current function (automatic operation mode)");
    (176, "Operation mode setting");
    (179, "Temperature setting");
    (187, "Measured indoor unit temperature");
    (202, "Group information");
    (219, "Power consumption range for indoor units")]);
  (3, 187, "Rice cooker", [
    (144, "Rice cooking reservation setting");
    (145, "Rice cooking reservation time setting");
    (146, "Rice cooking reservation relative time setting");
    (176, "Cover closure status");
    (177, "Rice cooking status");
    (178, "Rice cooking control setting");
    (225, "Warmer setting");
    (229, "Inner pot removal status");
    (230, "Cover removal status")]);
  (2, 138, "High-voltage smart electric energy meter", [
    (193, "Monthly maximum electric power demand");
    (194, "Cumulative maximum electric power demand");
    (195, "Electric power demand at fixed time (30-minute average electric power)");
    (196, "Number of effective digits of electric power demand");
    (197, "Unit of electric power demand");
    (198, "Historical data of measured electric power demand");
    (199, "Unit of cumulative maximum electric power demand");
    (202, "Measurement data of reactive electric power consumption (lag) for power factor measurement");
    (203, "Measurement data of cumulative amount of reactive electric power consumption (lag) at fixed time for power factor measurement");
    (204, "Number of effective digits for measurement data of cumulative amount of reactive electric power consumption (lag) for power factor measurement");
    (205, "Unit of measurement data of cumulative amount of reactive electric power consumption (lag)");
    (206, "Historical data of measurement data of cumulative amount of reactive electric power consumption (lag) for power factor measurement");
    (211, "Coefficient");
    (212, "Multiplying factor for coefficient");
    (224, "Fixed date");
    (225, "Day for which the historical data of measured cumulative amounts of electric energy is to be retrieved");
    (226, "Measured cumulative amounts of active electric energy");
    (227, "Cumulative amounts of active electric energy at fixed time");
    (228, "Measurement data of cumulative amounts of active electric energy for power factor measurement");
    (229, "Number of effective digits for cumulative amount of active electric energy");
    (230, "Unit of cumulative amounts of effective electric energy");
    (231, "Historical data of measured cumulative amount of active electric energy")]);
  (3, 185, "Cooking heater", [
    (150, "Relative time settings of off timers");
    (161, "Child lock setting");
    (162, "Radiant heater lock setting");
    (177, "Heating status");
    (178, "Heating setting");
    (179, "All stop setting");
    (224, "Heating modes of stoves");
    (227, "Heating temperature setting");
    (231, "Heating power setting")]);
  (0, 29, "VOC sensor", [
    (176, "Detection threshold level");
    (177, "VOC detection status");
    (224, "Measured value of VOC concentration")]);
  (2, 115, "Bathroom heater dryer", [
    (144, "On timer reservation setting 1");
    (145, "On timer setting value");
    (146, "On relative timer setting value");
    (148, "Off timer reservation setting");
    (149, "OFF timer setting value");
    (150, "Off relative timer setting value");
    (176, "Operation setting");
    (176, "Operation setting");
    (177, "Ventilation operation setting");
    (178, "Bathroom prewarming operation setting");
    (178, "Bathroom prewarming operation setting");
    (179, "Bathroom heating operation setting");
    (180, "Bathroom drying operation setting");
    (181, "Cool air circulation operation setting");
    (182, "Mist sauna operation setting");
    (183, "Water mist operation setting");
    (186, "Measured value of bathroom relative humidity");
    (187, "Measured value of bathroom temperature");
    (194, "Ventilation air flow rate setting");
    (207, "Filter cleaning reminder sign setting");
    (224, "Human body detection status");
    (225, "On timer reservation setting 2");
    (225, "On timer reservation setting 2")]);
  (3, 212, "Commercial show case outdoor unit", [
    (170, "Indicates that the showcase freezer is in an exceptional status.");
    (176, "Operation mode setting");
    (176, "Operation mode setting");
    (190, "Used to acquire measurements of outdoor air temperature.");
    (202, "Group information");
    (202, "Group information");
    (226, "Indicates compressor ON/OFF status.")]);
  (2, 167, "Frequency regulation", [
    (140, "Product code");
    (141, "Production number");
    (192, "Control point");
    (193, "Frequency regulation parameter setting");
    (194, "EM target power value");
    (195, "Command control parameter setting");
    (196, "Autonomous control parameter setting 1");
    (197, "Autonomous control parameter setting 2");
    (198, "Autonomous control parameter setting 3");
    (199, "Correction value for reference frequency");
    (208, "Transmittable/receivable cycle");
    (209, "Device type");
    (210, "Values of AC max power");
    (211, "Value of contract power");
    (212, "Device control performance");
    (213, "Information of frequency regulation");
    (214, "Detailed information of whether the device can continue to control");
    (215, "Information of EM");
    (216, "Measured instantaneous values of PCS");
    (217, "Response information");
    (218, "Instantaneous input and output power capability value");
    (219, "Instantaneous chargeable and dischargeable power values");
    (220, "Battery status");
    (222, "Cumulative electric energy measurement values");
    (223, "Cumulative electric energy measurement by frequency regulation");
    (224, "EM planned information");
    (225, "EM planned value 1");
    (226, "EM planned value 2");
    (227, "Information of supply plan for regulation up");
    (228, "Supply plan-1 for regulation up");
    (229, "Supply plan-2 for regulation up");
    (230, "Information of supply plan for regulation down");
    (231, "Supply plan-1 for regulation down");
    (232, "Supply plan-2 for regulation down")]);
  (2, 124, "Fuel cell", [
    (193, "Measured temperature of water in water heater");
    (194, "Rated power generation output");
    (194, "Rated power generation output");
    (195, "Heating value of hot water storage tank");
    (196, "Measured instantaneous power generation output");
    (197, "Measured cumulative power generation output");
    (198, "Cumulative power generation output reset setting");
    (198, "Cumulative energy generation output reset setting");
    (199, "Measured instantaneous gas consumption");
    (200, "Measured cumulative gas consumption");
    (201, "Cumulative gas consumption reset setting");
    (202, "Power generation setting");
    (202, "Power generation setting");
    (203, "Power generation status");
    (203, "Power generation status");
    (204, "Measured in-house instantaneous power consumption");
    (205, "Measured in-house cumulative power consumption");
    (205, "Measured in-house cumulative energy consumption");
    (206, "In-house cumulative power consumption reset");
    (206, "In-house cumulative energy consumption reset");
    (208, "System interconnected type");
    (208, "System interconnected type");
    (209, "Power generation request time setting");
    (210, "Designated power generation status");
    (225, "Measured remaining hot water amount");
    (226, "Tank capacity")]);
  (0, 2, "Crime prevention sensor", [
    (176, "Detection threshold level");
    (177, "Invasion occurrence status");
    (191, "Invasion occurrence status resetting")]);
  (2, 129, "Water flowmeter", [
    (208, "Water flowmeter classification");
    (209, "Owner classification");
    (224, "Measured cumulative amount of flowing water");
    (225, "Unit for measured Cumulative amounts of flowing water");
    (226, "Historical data of measured cumulative amount of flowing water");
    (227, "Detection of abnormal value in metering data");
    (228, "Security data information");
    (229, "ID number setting");
    (230, "Verification expiration information");
    (231, "Historical data 2 of measured cumulative amount of flowing water")]);
  (1, 48, "Home air conditioner", [
    (128, "Operation status");
    (143, "Power-saving operation setting");
    (144, "ON timer-based reservation setting");
    (145, "ON timer setting (time)");
    (146, "ON timer setting (relative time)");
    (148, "OFF timer-based reservation setting");
    (149, "OFF timer setting (time)");
    (150, "OFF timer setting (relative time)");
    (160, "Air flow rate setting");
    (160, "Air flow rate setting");
    (161, "Automatic control of air flow direction setting");
    (163, "Automatic swing of air flow setting");
    (164, "Air flow direction (vertical) setting");
    (165, "Air flow direction (horizontal) setting");
    (170, "Special state");
    (171, "Non-priority state");
    (176, "Operation mode setting");
    (177, "Automatic temperature control setting");
    (178, "Normal/highspeed/silent operation setting");
    (179, "Set temperature value");
    (180, "Set value of relative humidity in dehumidifying mode");
    (181, "Set temperature value in cooling mode");
    (182, "Set temperature value in heating mode");
    (183, "Set temperature value in dehumidifying mode");
    (184, "Rated power consumption");
    (185, "Measured value of current consumption");
    (186, "Measured value of room relative humidity");
    (187, "Measured value of room temperature");
    (187, "Measured value of room temperature");
    (188, "Set temperature value of user remote control");
    (189, "Measured cooled air temperature");
    (190, "Measured outdoor air temperature");
    (191, "Relative temperature setting");
    (192, "Ventilation function setting");
    (193, "Humidifier function setting");
    (194, "Ventilation air flow rate setting");
    (196, "Degree of humidification setting");
    (198, "Mounted air cleaning method");
    (199, "Air purifier function setting");
    (200, "Mounted air refresh method");
    (201, "Air refresher function setting");
    (202, "Mounted self-cleaning method");
    (203, "Self-cleaning function setting");
    (204, "Special function setting");
    (205, "Operation status of components");
    (206, "Thermostat setting override function");
    (206, "Thermostat setting override function");
    (207, "Air purification mode setting");
    (208, "Buzzer")]);
  (0, 34, "Electric energy sensor", [
    (224, "Cumulative amounts of electric energy");
    (225, "Medium-capacity sensor instantaneous electric energy");
    (226, "Small-capacity sensor instantaneous electric energy");
    (227, "Large-capacity sensor instantaneous electric energy");
    (228, "Cumulative amounts of electric energy measurement log");
    (228, "Cumulative amounts of electric energy measurement log");
    (229, "Effective voltage value")]);
  (3, 211, "Washer and dryer", [
    (144, "On timer reservation setting");
    (145, "On timer setting");
    (146, "Relative time-based on timer setting");
    (176, "Door/cover open/close status");
    (178, "Washer and dryer setting");
    (208, "Washer and dryer cycle setting 1");
    (209, "Washer and dryer cycle setting 2");
    (210, "Drying cycle setting");
    (211, "Washer and dryer cycle option list 1");
    (212, "Washer and dryer cycle option list 2");
    (213, "Washer and dryer cycle option list 3");
    (214, "Water flow rate setting");
    (215, "Rotation speed for spin drying setting");
    (216, "Degree of drying setting");
    (219, "Remaining washing time");
    (220, "Remaining drying time");
    (223, "Elapsed time on the ON timer");
    (225, "Presoaking time setting");
    (226, "Current stage of washer and dryer cycle");
    (227, "Water volume setting 1");
    (228, "Water volume setting 2");
    (229, "Washing time setting");
    (230, "Number of times of rinsing setting");
    (231, "Rinsing process setting");
    (232, "Spin drying time setting");
    (233, "Drying time setting");
    (234, "Warm water setting");
    (235, "Bathtub water recycle setting");
    (236, "Wrinkling minimization setting");
    (237, "Time remaining to complete washer and dryer cycle");
    (238, "Door/cover lock setting");
    (239, "Washer and dryer cycle")]);
  (2, 143, "Bidirectional high voltage smart electric energy meter", [
    (128, "Operation status");
    (192, "Route B Identification number");
    (193, "Monthly maximum electric power demand (normal and reverse directions)");
    (194, "Cumulative maximum electric power demand (normal and reverse directions)");
    (195, "Electric power demand at fixed time (30-minute average electric power) (normal and reverse directions)");
    (196, "Number of effective digits of electric power demand");
    (197, "Unit of electric power demand");
    (198, "Historical data of measured electric power demand (normal direction)");
    (199, "Unit of cumulative maximum electric power demand");
    (200, "Historical data of measured electric power demand (reverse direction)");
    (202, "Measurement data of cumulative amount of reactive electric energy (lag) for power factor (normal and reverse directions)");
    (203, "Measurement data of cumulative amount of reactive electric energy (lag) at fixed time for power factor (normal and reverse directions)");
    (204, "Number of effective digits for cumulative amount of reactive electric energy");
    (205, "Unit for cumulative amounts of reactive electric energy");
    (206, "Historical data of measurement data of cumulative amount of reactive electric energy (lag) for power factor (normal direction)");
    (207, "Historical data of measurement data of cumulative amount of reactive electric energy (lag) for power factor (reverse direction)");
    (208, "One-minute measured cumulative amount of active electric energy (normal and reverse directions)");
    (209, "One-minute measurement data of cumulative amount of reactive electric energy (lag) for power factor (normal and reverse directions)");
    (211, "Coefficient");
    (212, "Multiplying factor for coefficient");
    (213, "Present values of measured cumulative amount of reactive electric energy (lag) (normal and reverse directions)");
    (214, "Present values of measured cumulative amount of reactive electric energy (lead) (normal and reverse directions)");
    (224, "Fixed date");
    (225, "Day for which the historical data of measured cumulative amounts of electric energy is to be retrieved");
    (226, "Measured cumulative amount of active electric energy (normal and reverse directions)");
    (227, "Cumulative amounts of active electric energy at fixed time (normal and reverse directions)");
    (228, "Measurement data of cumulative amount of active electric energy for power factor (normal and reverse directions)");
    (229, "Number of effective digits for cumulative amount of active electric energy");
    (230, "Unit for cumulative amounts of active electric energy");
    (231, "Historical data of measured cumulative amount of active electric energy (normal direction)");
    (232, "Historical data of measured cumulative amount of active electric energy (reverse direction)");
    (234, "Measured instantaneous electric energy");
    (235, "Measured instantaneous currents 2");
    (237, "Historical data of measured cumulative amount of active electric energy 2 (normal and reverse directions)");
    (238, "Historical data of measurement data of cumulative amount of reactive electric energy (lag) for power factor 2 (normal and reverse directions)");
    (239, "Day for which the historical data of measured cumulative amounts of electric energy is to be retrieved 2")]);
  (2, 99, "Electrically operated rain sliding door/shutter", [
    (137, "Fault description (Recoverable faults)");
    (144, "Timer operation setting");
    (208, "Opening speed setting");
    (209, "Closing speed setting");
    (210, "Operation time");
    (224, "Open/close operation setting");
    (225, "Degree-of-opening setting");
    (226, "Blind angle setting");
    (227, "Opening/closing speed setting");
    (229, "Electric lock setting");
    (232, "Remote operation setting status");
    (233, "Selective degree-of-opening setting");
    (234, "Open/closed status");
    (237, "Slit degree-of-opening");
    (238, "One-time opening speed setting");
    (239, "One-time closing speed setting")]);
  (0, 27, "CO2 sensor", [
    (224, "Measured value of CO2 concentration")]);
  (0, 35, "Current sensor", [
    (224, "Measured current value 1");
    (225, "Rated voltage to be measured");
    (226, "Measured current value 2")]);
  (2, 161, "EV Charger", [
    (197, "Rated charge capacity");
    (199, "Vehicle connection and chargeable status");
    (199, "Vehicle connection and chargeable status");
    (200, "Minimum/maximum charging electric energy");
    (202, "Minimum/maximum charging electric current");
    (204, "Charger type");
    (204, "Charger type");
    (205, "Vehicle connection confirmation");
    (206, "Chargeable capacity of vehicle mounted battery");
    (207, "Remaining chargeable capacity of vehicle mounted battery");
    (208, "Used capacity of vehicle mounted battery 1");
    (210, "Rated voltage");
    (211, "Measured instantaneous charging electric energy");
    (216, "Measured cumulative amount of charging electric energy");
    (217, "Cumulative amount of charging electric energy reset setting");
    (218, "Operation mode setting");
    (226, "Remaining stored electricity of vehicle mounted battery1");
    (228, "Remaining stored electricity of vehicle mounted battery3");
    (230, "Vehicle ID");
    (231, "Charging amount setting");
    (235, "Charging electric energy setting");
    (237, "Charging current setting")]);
  (2, 128, "Watt-hour meter", [
    (224, "Cumulative amounts of electric energy measurement value");
    (226, "Cumulative amounts of electric energy unit");
    (227, "Cumulative amounts of electric energy measurement log 1")]);
  (0, 3, "Emergency button", [
    (177, "Emergency occurrence status");
    (191, "Emergency occurrence status resetting")]);
  (2, 121, "Household solar power generation", [
    (131, "Identification number");
    (137, "Fault description");
    (140, "Product code");
    (151, "Current time setting");
    (152, "Current date setting");
    (160, "Output power control setting 1");
    (161, "Output power control setting 2");
    (162, "Function to control purchase surplus electricity setting");
    (176, "Output power controlling schedule");
    (177, "Next access date and time");
    (178, "Function to control the type of surplus electricity purchase");
    (179, "Output power change time setting value");
    (180, "Upper limit clip setting value");
    (192, "Operation power factor setting value");
    (193, "FIT contract type");
    (194, "Self-consumption type");
    (195, "Capacity approved by equipment");
    (196, "Conversion coefficient");
    (208, "System-interconnected type");
    (208, "System-interconnected type");
    (209, "Output power restraint status");
    (224, "Measured instantaneous amount of electricity generated");
    (225, "Measured cumulative amount of electric energy generated");
    (226, "Resetting cumulative amount of electric energy generated");
    (227, "Measured cumulative amount of electric energy sold");
    (228, "Resetting cumulative amount of electric energy sold");
    (229, "Power generation output limit setting 1");
    (230, "Power generation output limit setting 2");
    (231, "Limit setting for the amount of electricity sold");
    (232, "Rated power generation output (System-interconnected)");
    (232, "Rated power generation output (System-interconnected)");
    (233, "Rated power generation output (Independent)")]);
  (2, 123, "Floor heater", [
    (128, "Operation status");
    (144, "ON timer reservation setting");
    (145, "Time set by ON timer");
    (146, "Relative ON timer setting");
    (148, "OFF timer reservation setting");
    (149, "Time set by OFF timer");
    (150, "Relative OFF timer setting");
    (209, "Maximum temperature level");
    (224, "Set temperature value");
    (225, "Set temperature level by 15 steps");
    (226, "Measured room temperature");
    (227, "Measured floor temperature");
    (227, "Measured floor temperature");
    (228, "Zone change setting");
    (229, "Special operation setting");
    (230, "Daily timer setting");
    (231, "Daily timer setting 1");
    (232, "Daily timer setting 2");
    (233, "Rated power consumption");
    (234, "Power consumption measurement method")]);
  (0, 22, "Bath heating status sensor", [
    (176, "Detection threshold level");
    (177, "Bath heating detection status")]);
  (2, 122, "Cold or hot water heat source equipment", [
    (144, "ON timer reservation setting");
    (145, "ON timer setting");
    (146, "Relative ON timer setting");
    (148, "OFF timer reservation setting");
    (149, "Time set by OFF timer");
    (150, "Relative OFF timer setting");
    (209, "Cold water temperature setting 2 Maximum allowable setting level");
    (210, "Warm water temperature setting 2 Maximum allowable setting level");
    (224, "Operation mode setting");
    (225, "Water temperature setting 1");
    (226, "Water temperature setting 2");
    (227, "Measured temperature of outward water (Exit water Temperature)");
    (228, "Measured temperature of inward water (Entrance water Temperature)");
    (229, "Special operation setting");
    (230, "Daily timer setting");
    (231, "Daily timer setting 1");
    (232, "Daily timer setting 2");
    (233, "Rated power consumption");
    (234, "Power consumption measurement method")]);
  (2, 141, "Smart electric energy meter for sub-metering", [
    (211, "Electric energy coefficient");
    (212, "Unit for cumulative amount of electric energy (normal and reverse directions)");
    (215, "Number of effective digits for cumulative amounts of electric energy");
    (216, "Electric current coefficient");
    (217, "Voltage coefficient");
    (224, "Day for which the historical data of measured cumulative amounts of electric energy is to be retrieved");
    (225, "Measured cumulative amount of electric energy(normal direction)");
    (226, "Historical data of measured cumulative amounts of electric energy (normal direction)");
    (227, "Measured cumulative amount of electric energy (reverse direction)");
    (228, "Historical data of measured cumulative amounts of electric energy (reverse direction)");
    (231, "Measured instantaneous electric power");
    (232, "Measured instantaneous currents");
    (233, "Measured instantaneous voltages");
    (234, "Cumulative amounts of electric energy measured at fixed time(normal direction)");
    (235, "Cumulative amounts of electric energy measured at fixed time(reverse direction)")]);
  (2, 96, "Electrically operated blind/shade", [
    (137, "Fault description (Recoverable faults)");
    (144, "Timer operation setting");
    (194, "Wind detection status");
    (195, "Sunlight detection status");
    (208, "Opening (extension) speed setting");
    (209, "Closing (retraction) speed setting");
    (210, "Operation time");
    (212, "Automatic operation setting");
    (224, "Open/close (extension/retraction) setting");
    (225, "Degree-of-opening level");
    (226, "Shade angle setting");
    (227, "Open/close (extension/retraction) speed setting");
    (229, "Electric lock setting");
    (232, "Remote operation setting status");
    (233, "Selective opening (extension) operation setting");
    (234, "Open/closed (extended/retracted) status");
    (238, "One-time opening (extension) speed setting");
    (239, "One-time closing (retraction) speed setting")]);
  (2, 163, "Lighting system", [
    (176, "Light level setting");
    (192, "Scene control setting");
    (193, "Number that can assign scene control setting")]);
  (1, 51, "Ventilation fan", [
    (128, "Operation status");
    (160, "Set value of ventilation air flow rate");
    (191, "Ventilation Auto setting")]);
  (2, 142, "distributed generator's electric energy meter", [
    (208, "Device type");
    (209, "Device ID");
    (210, "Tolerance class");
    (211, "Number of days to retain historical data of measured cumulative amounts of electric energy");
    (212, "Unit for cumulative amounts of electric energy");
    (213, "Day on which the historical data of measured cumulative amounts of electric energy is to be retrieved");
    (214, "Identification number of device to be metered");
    (218, "Current hour, minute, and second setting");
    (219, "Time synchronization status");
    (224, "Measured cumulative amounts of electric energy (AC input)");
    (225, "Historical data of measured cumulative amounts of electric energy (AC input)");
    (226, "Measured cumulative amounts of electric energy (AC output)");
    (227, "Historical data of measured cumulative amounts of electric energy (AC output)");
    (228, "Measured cumulative amounts of electric energy (output during a power outage)");
    (229, "Historical data of measured cumulative amounts of electric energy (output during a power outage )");
    (230, "Cumulative amounts of electric energy measured at fixed time (AC input)");
    (231, "Cumulative amounts of electric energy measured at fixed time (AC output)");
    (232, "Cumulative amounts of electric energy measured at fixed time (output during a power outage)");
    (233, "Measured instantaneous electric power (AC input/output)");
    (234, "Measured instantaneous electric power (output during a power outage)")]);
  (2, 111, "Electric lock", [
    (224, "Lock setting1");
    (225, "Lock setting 2");
    (226, "Lock status of door guard");
    (227, "Door open/close status");
    (228, "Occupant/ non-occupant status");
    (229, "Alarm status");
    (230, "Auto lock mode setting");
    (231, "Battery level")]);
  (2, 130, "Gas meter", [
    (224, "Cumulative amount of gas consumption measurement value");
    (226, "Cumulative amounts of gas consumption measurement log")]);
  (1, 52, "Air conditioner ventilation fan", [
    (128, "Operation status");
    (160, "Set value of ventilation air flow rate");
    (176, "Ventilation mode automatic setting");
    (177, "Ventilation method setting");
    (178, "Ventilation mode setting");
    (179, "Cooling / heating high-low setting");
    (180, "Set value of room relative humidity");
    (185, "Measured value of electric current consumption");
    (186, "Measured value of room relative humidity");
    (190, "Measured value of outdoor air temperature");
    (191, "Ventilation auto setting");
    (192, "Measured value of CO2 concentration");
    (193, "Smoke (cigarette) detection status");
    (194, "Pollution detection status");
    (202, "Measured value of outdoor relative humidity");
    (208, "Measured value of return air temperature");
    (209, "Measured value of return relative humidity");
    (210, "Measured value of charging air temperature");
    (211, "Measured value of charging relative humidity");
    (212, "Measured value of discharging air temperature");
    (213, "Measured value of discharging air relative humidity");
    (224, "Heat exchanger operation setting")]);
  (5, 255, "Controller", [
    (192, "Controller ID");
    (193, "Number of devices controlled");
    (194, "Index");
    (195, "Device ID");
    (196, "Device type");
    (197, "Name");
    (198, "Connection status");
    (199, "Business code of the device to be controlled");
    (199, "Business code of the device to be controlled");
    (200, "Product code of the device to be controlled");
    (200, "Product code of the device to be controlled");
    (201, "Manufacture date of the device to be controlled");
    (201, "Manufacture date of the device to be controlled");
    (202, "Registered information renewal date of the device to be controlled");
    (202, "Registered information renewal date of the device to be controlled");
    (203, "Registered information renewal version information of the device to be controlled");
    (203, "Registered information renewal version information of the device to be controlled");
    (204, "Place to install device to be controlled");
    (205, "Fault status of device to be controlled");
    (206, "Set property map for device to be controlled");
    (207, "Get property map for device to be controlled");
    (224, "Address of installation location")]);
  (2, 164, "Extended lighting system", [
    (176, "Light level setting");
    (192, "Scene control setting");
    (193, "Number that can assign scene control setting.");
    (194, "Power consumption rate list");
    (195, "Power consumption when fully lighted");
    (196, "Possible power savings");
    (197, "Power consumption limit setting");
    (198, "Automatic operation controlling setting");
    (199, "Fading control change time setting")]);
  (0, 17, "Temperature sensor", [
    (224, "Measured temperature value")]);
  (0, 7, "Human detection sensor", [
    (176, "Detection threshold level");
    (177, "Human detection status")]);
  (3, 183, "Refrigerator", [
    (160, "Quick freeze function setting");
    (161, "Quick refrigeration function setting");
    (164, "Icemaker setting");
    (165, "Icemaker operation status");
    (166, "Icemaker tank status");
    (168, "Refrigerator compartment humidification function setting");
    (169, "Vegetable compartment humidification function setting");
    (173, "Deodorization function setting");
    (176, "Door open/close status");
    (177, "Door open warning");
    (178, "Refrigerator compartment door status");
    (179, "Freezer compartment door status");
    (180, "Ice compartment door status");
    (181, "Vegetable compartment door status");
    (182, "Multi-refrigerating mode compartment door status");
    (209, "Measured refrigerator compartment temperature");
    (210, "Measured freezer compartment temperature");
    (211, "Measured subzero-fresh compartment temperature");
    (212, "Measured vegetable compartment temperature");
    (213, "Measured multi-refrigerating mode compartment temperature");
    (216, "Compressor rotation speed");
    (218, "Measured electric current consumption");
    (220, "Rated power consumption");
    (224, "Maximum allowable temperature setting level");
    (226, "Refrigerator compartment temperature setting");
    (227, "Freezer compartment temperature setting");
    (228, "Ice compartment temperature setting");
    (229, "Vegetable compartment temperature setting");
    (230, "Multi-refrigerating mode compartment temperature setting");
    (233, "Refrigerator compartment temperature level setting");
    (234, "Freezer compartment temperature level setting");
    (235, "Ice compartment temperature level setting");
    (236, "Vegetable compartment temperature level setting");
    (237, "Multi-refrigerating mode compartment temperature level setting")]);
  (2, 165, "Multiple input pcs", [
    (128, "Operation status");
    (131, "Identification number");
    (137, "Fault description");
    (140, "Product code");
    (151, "Current time setting");
    (152, "Current date setting");
    (208, "System interconnection status");
    (224, "Measured cumulative amount of electric energy (normal direction)");
    (227, "Measured cumulative amount of electric energy (reverse direction)");
    (231, "Measured instantaneous electric power");
    (232, "List of connected devices")]);
  (1, 53, "Air cleaner", [
    (128, "Operation status");
    (160, "Air flow rate setting");
    (192, "Air pollution detection status");
    (193, "Smoke (cigarette) detection status");
    (194, "Optical catalyst operation setting");
    (225, "Filter change notice")]);
  (2, 136, "Low-voltage smart electric energy meter", [
    (192, "Route B Identification number");
    (208, "One-minute measured cumulative amounts of electric energy measured (normal and reverse directions)");
    (211, "Coefficient");
    (215, "Number of effective digits for cumulative amounts of electric energy");
    (224, "Measured cumulative amount of electric energy (normal direction)");
    (225, "Unit for cumulative amounts of electric energy (normal and reverse directions)");
    (226, "Historical data of measured cumulative amounts of electric energy 1 (normal direction)");
    (227, "Measured cumulative amount of electric energy (reverse direction)");
    (228, "Historical data of measured cumulative amounts of electric energy 1 (reverse direction)");
    (229, "Day for which the historical data of measured cumulative amounts of electric energy is to be retrieved 1");
    (231, "Measured instantaneous electric power");
    (232, "Measured instantaneous currents");
    (234, "Cumulative amounts of electric energy measured at fixed time (normal direction)");
    (235, "Cumulative amounts of electric energy measured at fixed time (reverse direction)");
    (236, "Historical data of measured cumulative amounts of electric energy 2 (normal and reverse directions)");
    (237, "Day for which the historical data of measured cumulative amounts of electric energy is to be retrieved 2");
    (238, "Historical data of measured cumulative amounts of electric energy 3 (normal and reverse directions)");
    (239, "Day for which the historical data of measured cumulative amounts of electric energy is to be retrieved 3")])
].

Definition man_rows : list (Z * string) := [
  (307, "afterFIT Co., Ltd.");
  (47, "AIPHONE CO., LTD.");
  (282, "ACCESS CO.,LTD.");
  (44, "AFT CO.,LTD");
  (104, "AISIN CORPORATION");
  (121, "Anritsu Engineering Co.,Ltd,");
  (127, "ANRITSU CUSTOMER SUPPORT CO., LTD.");
  (272, "ASUKA SOLUTION COMPANY LIMITED");
  (150, "Azbil Corporation");
  (253, "Bellnix Co.,LTD");
  (204, "Bosch Home Comfort Japan, Inc.");
  (111, "BUFFALO INC.");
  (182, "Bunka Shutter Co., Ltd");
  (23, "Carrier Japan Corporation");
  (210, "CHOFUKOSAN.Co.Ltd");
  (136, "CHOFU SEISAKUSHO CO.,LTD.");
  (213, "Choshu Industry Co., Ltd.");
  (163, "Chubu Electric Power Grid Co.,Inc.");
  (310, "Chuo Bussan Co.,Ltd.");
  (251, "CICO CORPORATION");
  (248, "CIMX INITIATIVE INC.");
  (291, "Contec Co., Ltd.");
  (304, "COOLDESIGN Corporation");
  (103, "CORONA CORPORATION");
  (315, "Crossdoor Inc.");
  (323, "Deye Energy Japan Co., Ltd.");
  (156, "Diamond Electric Mfg.Co.,Ltd.");
  (128, "DIAMOND&ZEBRA ELECTRIC MFG.CO.,LTD.");
  (281, "DAIHEN Corporation");
  (8, "DAIKIN INDUSTRIES,LTD.");
  (21, "Daikin Systems&Solutions Laboratory Ltd.");
  (321, "DAIKO ELECTRIC CO.,LTD.");
  (79, "Daiwa House Industry co.,Ltd");
  (259, "Data Technology Inc.");
  (227, "DDL Co.,Ltd");
  (173, "Delta Electronics (Japan), Inc.");
  (190, "DENKEN Co.,Ltd.");
  (244, "DENSO AIRCOOL CORPORATION");
  (60, "DENSO Corporation");
  (265, "DENSO Co.,LTD.");
  (299, "DENSO WAVE INCORPORATED");
  (275, "EBARA JITSUGYO CO., LTD");
  (87, "ELIIYPower Co.,ltd");
  (302, "Eneres Co.,Ltd.");
  (65, "ENEGATE CO.,LTD.");
  (266, "ENERGY GAP CORPORATION");
  (243, "Energy Gateway, Inc");
  (319, "Energy Pool Japan K.K.");
  (242, "Energy Solutions Inc.");
  (114, "Eneres Co.,Ltd.");
  (221, "EneStone Corporation");
  (306, "EX4Energy, Inc.");
  (85, "FAMILYNET JAPAN CORPORATION");
  (246, "Field Logic Inc.");
  (303, "FORMOSA BIO AND ENERGY CORP JAPAN");
  (203, "Fuji Electric Co.,Ltd");
  (252, "FUJI INDUSTRIAL CO.,Ltd.");
  (81, "Fuji IT Co.,Ltd.");
  (138, "FUJITSU GENERAL LIMITED");
  (78, "FUJITSU LIMITED");
  (144, "Fujitsu Component Limited");
  (222, "FUJIFILM Business Innovation Japan Corp");
  (151, "Future Technology Laboratories, Inc.");
  (155, "GASTAR Co.,Ltd");
  (143, "Glamo Inc.");
  (297, "GoodWe Japan K.K");
  (308, "GoodWe Technologies Co.,Ltd.");
  (159, "GS Yuasa International Ltd");
  (314, "GUGEN,Inc.");
  (290, "Hanwha Q CELLS Japan CO.,LTD.");
  (1, "Hitachi, Ltd.");
  (34, "Hitachi Global Life Solutions, Inc.");
  (64, "Hitachi High-Tech Solutions Corporation");
  (68, "Hitachi Industrial Equipment Systems Co.,Ltd.");
  (229, "Hitachi Power Solutions Co.,Ltd.");
  (230, "Hokkaido Electrical Safety Services Foundation");
  (184, "Hokkaido Electric Power Network, Inc.");
  (187, "Hokuriku Electric Power Transmission & Distribution Company");
  (161, "Honda R&D Co., Ltd.");
  (277, "HUAWEI TECHNOLOGIES JAPAN K.K.");
  (176, "idea co.,ltd. ");
  (172, "IDEC COROPRATION");
  (318, "i GRID SOLUTIONS Inc.");
  (77, "INABA DENKI SANGYO CO.,LTD.");
  (86, "iND Co.,Ltd");
  (237, "INFINI Co. LTD");
  (292, "INTEC Inc.");
  (177, "Internet Initiative Japan Inc.");
  (135, "I-O DATA DEVICE,INC.");
  (107, "ISB Corporation");
  (271, "Iwatani Corporation");
  (129, "IWATSU ELECTRIC CO., LTD.");
  (195, "Japan Electric Meters Inspection Corporation");
  (247, "JCity,Inc.");
  (202, "JSP CO.,LTD.");
  (215, "Kaga Electronics co.,ltd.");
  (119, "Kanagawa Institute of Technology");
  (99, "Kawamura Electric Inc.");
  (240, "KANEKA CORPORATION");
  (267, "KITANIHON ELECTRIC CABLE CO.,LTD.");
  (232, "KOIZUMI LIGHTING TECHNOLOGY CORP.");
  (59, "KYOCERA Corporation");
  (140, "Kyuden Technosystems Corporation");
  (191, "KYUSHU ELECTRIC POWER TRANSMISSION AND DISTRIBUTION CO.,INC.");
  (320, "Landis+Gyr AG");
  (241, "Laplace Systems Co., Ltd.");
  (309, "LinkJapan Inc.");
  (293, "LiveSmart KK");
  (37, "LIXIL Corporation");
  (224, "Looop Inc");
  (268, "MAX CO., LTD.");
  (120, "Maxell, Ltd.");
  (88, "Mediotec Corporation");
  (288, "Meisei electric co.,ltd.");
  (131, "Melco Techno Yokohama Corporation");
  (6, "Mitsubishi Electric Corp.");
  (52, "MITSUBISHI ELECTRIC ENGINEERING COMPANY LIMITED");
  (261, "Mitsubishi Electric Lighting Corporation");
  (298, "Monochrome Inc.");
  (285, "mui Lab, Inc.");
  (212, "Murata Manufacturing Co.,Ltd.");
  (262, "Nature Inc.");
  (9, "NEC Corp.");
  (280, "NEC Magnus Communications, Ltd");
  (115, "NEC Platforms, Ltd.");
  (145, "NEC Platforms, Ltd.");
  (226, "NextDrive Inc.");
  (260, "Next Energy & Resources Co., Ltd.");
  (178, "NF Blossom Technologies, Inc.");
  (165, "Nichibei Co., Ltd.");
  (108, "NICHICON CORPORATION");
  (235, "NICHICON (KAMEOKA) CORPORATION");
  (258, "NICHICON (KUSATSU) CORPORATION");
  (274, "NICHIEI INTEC CO., LTD");
  (113, "NIHON SANGYO CO.,LTD.");
  (220, "NIHON TECHNO CO.,LTD.");
  (317, "NIPPON GAS CO.,LTD.");
  (141, "NIPPON TELEGRAPH AND TELEPHONE CORPORATION");
  (71, "NIPPON TELEGRAPH AND TELEPHONE EAST CORPORATION");
  (134, "NIPPON TELEGRAPH AND TELEPHONE WEST CORPORATION");
  (54, "NISSIN SYSTEMS CO., LTD.");
  (183, "Nitto Kogyo Corporation");
  (84, "NORITZ CORP.");
  (124, "NSW Inc.");
  (160, "NTT Advanced Technology Corporation");
  (35, "NTT COMWARE CORPORATION");
  (97, "NTT DATA INTELLILINK Corporation");
  (233, "NTT SMILE ENERGY,Inc.");
  (245, "ODELIC CO., LTD.");
  (18, "Oi Electric Co., Ltd");
  (106, "OKAYA & CO., LTD.");
  (276, "OkayaKiden Co.,Ltd.");
  (311, "OkayaKiden Co.,Ltd.");
  (72, "Oki Electric Industry Co., Ltd.");
  (100, "OMRON SOCIAL SOLUTIONS CO.,LTD.");
  (300, "Onamba Co., Ltd.");
  (216, "OSAKI DATATECH CO.,LTD.");
  (82, "OSAKI ELECTRIC CO.,LTD.");
  (295, "Paloma Co.,Ltd.");
  (11, "Panasonic Holdings Corporation");
  (218, "Panasonic Commercial Equipment Systems Co.,Ltd.");
  (254, "Panasonic Ecology Systems Co.,Ltd.");
  (250, "Plat'Home Co.");
  (130, "PURPOSE CO.,LTD.");
  (313, "RATOC Systems, Inc.");
  (89, "Rinnai Corporation");
  (296, "SAIKOH ENGINEERING Co.,Ltd.");
  (286, "SAKAIGAWA CO., LTD");
  (284, "SANDEN RETAIL SYSTEMS CORPORATION");
  (270, "SANIX INCORPORATED");
  (186, "SankyoTateyama, Inc.");
  (197, "SANWA SHUTTER CORPORATION");
  (147, "SATORI ELECTRIC CO.,LTD.");
  (263, "SEIKO ELECTRIC CO.,LTD.");
  (58, "SEKISUI HOUSE, LTD.");
  (5, "Sharp Corp");
  (305, "Shenzhen Eternalplanet Energy Pingshan Ltd.");
  (174, "SHIKOKU ELECTRIC POWER CO.,INC.");
  (46, "SHIKOKU INSTRUMENTATION CO.,LTD");
  (206, "SHINDENGEN ELECTRIC MANUFACTURING CO.LTD.");
  (269, "Shizen Connect Inc.");
  (168, "Smart Power System. Co,. Ltd.");
  (223, "SMA Japan K.K.");
  (256, "Smart Solar Corporation");
  (126, "SMK Corporation");
  (225, "SoftBank Corp.");
  (283, "SolaX Power Network Technology (Zhe jiang) Co. , Ltd.");
  (96, "Sony Computer Science Laboratories, Inc.");
  (110, "Soundvision co.,ltd.");
  (264, "SOUSEI Technology Inc.");
  (278, "Sungrow Power Supply Co., Ltd.");
  (257, "Sunpot Co., Ltd");
  (219, "Suntech Power Japan Corporation");
  (61, "SUMITOMO ELECTRIC INDUSTRIES, LTD.");
  (62, "SUMITOMO ELECTRIC NETWORKS, INC.");
  (301, "TACHIKAWA CORPORATION");
  (133, "TAKAOKA TOKO CO.,LTD");
  (175, "Takara Standard Co.,Ltd");
  (228, "technoeye Inc.");
  (255, "TEPCO Energy Partner, Inc.");
  (238, "TESSERA TECHNOLOGY INC.");
  (181, "The Chugoku Electric Power Co., Ltd");
  (154, "The Kansai Electric Power Co., Inc.");
  (205, "TOCLAS CORPORATION");
  (294, "Togami Electric Mfg.co.,Ltd.");
  (249, "TOHO ELECTRONICS INC.");
  (194, "Tohoku Electric Meter Industry Co.,Inc");
  (188, "TohokuElectric Power Network Company,Incorporated");
  (153, "Tokyo Electric Power Company Holdings, Inc.");
  (179, "TOPPERS Project, Inc.");
  (273, "Topre Corporation");
  (22, "Toshiba Corporation");
  (67, "TOSHIBA DEVELOPMENT & ENGINEERING CORPORATION");
  (236, "Toshiba Energy Systems & Solutions Corporation");
  (217, "Toshiba IT & Control Systems Corporation");
  (105, "Toshiba Lifestyle Products & Services Corporation");
  (27, "TOSHIBA LIGHTING & TECHNOLOGY CORPORATION");
  (53, "Toshiba Toko Meter Systems Co.,Ltd.");
  (80, "TOTO LTD.");
  (239, "TOYOTA INDUSTRIES CORPORATION");
  (289, "TOYOTA MOTOR CORPORATION");
  (287, "TOYOTA TSUSHO CORPORATION");
  (92, "Tranceboot Co.,Ltd.");
  (312, "TRENDE Inc.");
  (118, "TSP CO.,Ltd");
  (208, "TSUBAKIMOTO CHAIN CO.");
  (193, "Tsuken Electric Ind Co., Ltd.");
  (83, "Ubiquitous AI Corporation");
  (279, "WWB Corporation");
  (149, "Yamato Denki Co.,Ltd.");
  (322, "Yanekara Inc");
  (158, "YASKAWA ELECTRIC CORPORATION");
  (122, "ZUKEN ELMIC,INC.");
  (180, "4R Energy Corporation");
  (16777215, "Experimental");
  (16777214, "Undefined")
].
