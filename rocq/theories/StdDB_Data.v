(* Generated by tools/gen_stddb.py from src/uecho/std/objects_mra.c:55-1270
   (uecho_database_addstandardobjects).  One entry per uecho_standard_object_new, in file
   order: group code, class code, and the arguments (epc, get, set, anno rule) of the
   uecho_standard_object_property_new calls added to it, in file order.
   Rules: Rq = "required", Op = "optional", Rc = "required_c", Ro = "required_o", Na = "notApplicable".
   Names, data types and data sizes are dropped (the C code ignores type and size). *)
From Coq Require Import ZArith List.
Import ListNotations.
Open Scope Z_scope.

Inductive rule : Set := Rq | Op | Rc | Ro | Na.

Definition std_rows : list (Z * Z * list (Z * rule * rule * rule)) := [
  (* line 60: Super class (0x0000) *)
  (0, 0, [(128, Rq, Op, Rq); (129, Rq, Rq, Rq); (129, Rq, Rq, Rq); (130, Rq, Na, Op); (131, Op, Op, Op);
    (131, Op, Na, Op); (132, Op, Na, Op); (133, Op, Na, Op); (134, Op, Na, Op); (135, Op, Op, Op);
    (136, Rq, Na, Rq); (137, Op, Na, Op); (138, Rq, Na, Op); (138, Rq, Na, Op); (139, Op, Na, Op);
    (140, Op, Na, Op); (141, Op, Na, Op); (142, Op, Na, Op); (143, Op, Op, Op); (147, Op, Op, Op);
    (147, Op, Op, Rq); (147, Op, Op, Op); (147, Op, Op, Op); (151, Op, Op, Op); (152, Op, Op, Op);
    (153, Op, Op, Op); (154, Op, Na, Op); (157, Rq, Na, Op); (158, Rq, Na, Op); (159, Rq, Na, Op)]);
  (* line 94: Node profile (0x0EF0) *)
  (14, 240, [(128, Rq, Na, Rq); (130, Rq, Na, Op); (131, Rq, Na, Op); (136, Op, Na, Op); (137, Op, Na, Op);
    (138, Rq, Na, Op); (139, Op, Na, Op); (140, Op, Na, Op); (141, Op, Na, Op); (142, Op, Na, Op);
    (157, Rq, Na, Op); (158, Rq, Na, Op); (159, Rq, Na, Op); (191, Op, Op, Op); (211, Rq, Na, Op);
    (212, Rq, Na, Op); (213, Op, Na, Rq); (214, Rq, Na, Op); (215, Rq, Na, Op)]);
  (* line 117: Hybrid water heater (0x02A6) *)
  (2, 166, [(176, Op, Op, Rq); (178, Op, Na, Rq); (179, Op, Na, Rq); (182, Op, Op, Op); (183, Op, Op, Op);
    (184, Rq, Rq, Rq); (185, Op, Op, Op); (195, Op, Na, Rq); (225, Op, Na, Op); (226, Op, Na, Op)]);
  (* line 131: Switch (supporting JEM-A/HA terminals) (0x05FD) *)
  (5, 253, [(224, Op, Op, Op)]);
  (* line 136: Instantaneous water heater (0x0272) *)
  (2, 114, [(144, Op, Op, Op); (145, Op, Op, Op); (146, Op, Op, Op); (208, Rq, Na, Op); (209, Op, Op, Op);
    (210, Op, Op, Op); (212, Op, Op, Op); (213, Op, Na, Op); (214, Op, Op, Op); (215, Op, Op, Op);
    (218, Op, Op, Op); (219, Op, Na, Op); (225, Op, Op, Op); (226, Rq, Na, Op); (227, Ro, Ro, Op);
    (228, Op, Op, Op); (229, Op, Op, Op); (230, Op, Op, Op); (231, Op, Op, Op); (232, Op, Op, Op);
    (233, Op, Op, Op); (233, Op, Na, Op); (234, Op, Na, Op); (235, Op, Na, Op); (236, Op, Op, Op);
    (237, Op, Op, Op); (238, Op, Op, Op); (239, Op, Na, Rq)]);
  (* line 168: Commercial showcase (0x03CE) *)
  (3, 206, [(176, Rq, Rq, Rq); (176, Rq, Rq, Rq); (189, Op, Na, Op); (202, Op, Op, Op); (202, Rq, Op, Op);
    (208, Rq, Na, Op); (209, Rq, Na, Op); (210, Rq, Na, Op); (211, Rq, Na, Op); (212, Rq, Na, Op);
    (224, Rq, Op, Rq); (225, Op, Op, Rq); (226, Op, Op, Op); (227, Rq, Na, Op); (228, Op, Na, Op);
    (229, Op, Na, Op); (230, Op, Na, Op); (231, Rq, Na, Op); (235, Op, Na, Op); (236, Op, Na, Op);
    (237, Op, Op, Op); (238, Op, Op, Op); (239, Rq, Rq, Op)]);
  (* line 195: Illuminance sensor (0x00D0) *)
  (0, 208, [(224, Rc, Na, Op); (225, Rc, Na, Op)]);
  (* line 201: Television (0x0602) *)
  (6, 2, [(128, Rq, Ro, Rq); (176, Op, Op, Op); (177, Ro, Na, Rq); (178, Ro, Na, Op); (179, Op, Rq, Op);
    (180, Ro, Na, Op)]);
  (* line 211: EV charger and discharger (0x027E) *)
  (2, 126, [(137, Rq, Na, Op); (140, Rq, Na, Op); (192, Rq, Na, Op); (193, Rc, Na, Op); (193, Op, Na, Op);
    (194, Rq, Na, Op); (195, Rc, Na, Op); (195, Op, Na, Op); (196, Rq, Na, Op); (197, Rq, Na, Op);
    (198, Rq, Na, Op); (199, Rq, Na, Rq); (199, Rq, Na, Rq); (199, Rq, Na, Rq); (200, Rq, Na, Op);
    (201, Rq, Na, Op); (202, Rq, Na, Op); (203, Rq, Na, Op); (204, Rq, Na, Op); (205, Na, Rq, Na);
    (206, Rq, Na, Op); (207, Rq, Na, Op); (208, Rq, Na, Op); (209, Rc, Na, Op); (209, Op, Na, Op);
    (210, Op, Na, Op); (211, Op, Na, Op); (212, Op, Na, Op); (213, Op, Na, Op); (214, Op, Na, Op);
    (215, Na, Op, Na); (216, Op, Na, Op); (217, Na, Op, Na); (218, Rq, Rq, Rq); (218, Rq, Rq, Rq);
    (218, Rq, Rq, Rq); (218, Rq, Rq, Rq); (219, Op, Na, Op); (220, Rq, Op, Rq); (220, Rq, Op, Rq);
    (221, Rq, Op, Rq); (221, Rq, Op, Rq); (222, Op, Op, Op); (223, Op, Op, Op); (224, Op, Op, Op);
    (225, Op, Na, Rq); (226, Rq, Na, Op); (227, Rc, Na, Op); (227, Op, Na, Op); (228, Rq, Na, Op);
    (229, Op, Na, Rq); (230, Rq, Na, Op); (231, Op, Op, Op); (233, Op, Op, Op); (234, Op, Op, Op);
    (235, Op, Op, Op); (236, Op, Op, Op); (237, Op, Op, Op); (238, Op, Op, Op); (239, Op, Na, Op)]);
  (* line 275: Package-type commercial air conditioner (outdoor unit) (0x0157) *)
  (1, 87, [(171, Op, Na, Op); (184, Op, Na, Op); (190, Op, Na, Op); (202, Rq, Na, Op); (219, Rq, Na, Op);
    (221, Rq, Na, Op); (222, Rq, Rq, Op); (223, Op, Na, Op)]);
  (* line 287: Humidity sensor (0x0012) *)
  (0, 18, [(224, Rq, Na, Op)]);
  (* line 292: Mono functional lighting (0x0291) *)
  (2, 145, [(128, Rq, Rq, Rq); (176, Op, Op, Op)]);
  (* line 298: Power distribution board metering (0x0287) *)
  (2, 135, [(176, Op, Na, Op); (177, Op, Na, Op); (178, Op, Op, Op); (179, Op, Na, Op); (180, Op, Op, Op);
    (181, Op, Na, Op); (182, Op, Op, Op); (183, Op, Na, Op); (184, Op, Na, Op); (185, Op, Op, Op);
    (186, Op, Na, Op); (187, Op, Op, Op); (188, Op, Na, Op); (189, Op, Op, Op); (190, Op, Na, Op);
    (192, Rq, Na, Op); (193, Rq, Na, Op); (194, Rq, Na, Op); (195, Op, Na, Op); (196, Op, Na, Op);
    (197, Op, Op, Op); (198, Op, Na, Op); (199, Op, Na, Op); (200, Op, Na, Op); (208, Op, Na, Op);
    (209, Op, Na, Op); (210, Op, Na, Op); (211, Op, Na, Op); (212, Op, Na, Op); (213, Op, Na, Op);
    (214, Op, Na, Op); (215, Op, Na, Op); (216, Op, Na, Op); (217, Op, Na, Op); (218, Op, Na, Op);
    (219, Op, Na, Op); (220, Op, Na, Op); (221, Op, Na, Op); (222, Op, Na, Op); (223, Op, Na, Op);
    (224, Op, Na, Op); (225, Op, Na, Op); (226, Op, Na, Op); (227, Op, Na, Op); (228, Op, Na, Op);
    (229, Op, Na, Op); (230, Op, Na, Op); (231, Op, Na, Op); (232, Op, Na, Op); (233, Op, Na, Op);
    (234, Op, Na, Op); (235, Op, Na, Op); (236, Op, Na, Op); (237, Op, Na, Op); (238, Op, Na, Op);
    (239, Op, Na, Op)]);
  (* line 358: Electric water heater (0x026B) *)
  (2, 107, [(144, Op, Op, Op); (145, Op, Op, Op); (176, Rq, Rq, Op); (176, Rq, Rq, Rq); (177, Op, Op, Op);
    (178, Op, Na, Op); (178, Rq, Na, Rq); (179, Op, Op, Op); (180, Op, Op, Op); (181, Op, Op, Op);
    (182, Op, Op, Op); (192, Op, Op, Op); (192, Rq, Rq, Op); (193, Op, Na, Op); (194, Op, Na, Rq);
    (195, Rq, Na, Rq); (196, Op, Op, Op); (199, Rq, Rq, Op); (200, Rq, Na, Op); (201, Rq, Na, Op);
    (202, Rq, Rq, Op); (203, Rq, Na, Op); (204, Rq, Na, Op); (205, Rq, Rq, Op); (206, Rq, Na, Op);
    (207, Rq, Na, Op); (209, Op, Op, Op); (211, Op, Op, Op); (212, Op, Op, Op); (213, Op, Na, Op);
    (214, Op, Op, Op); (215, Op, Op, Op); (216, Op, Na, Op); (217, Op, Op, Op); (219, Op, Na, Op);
    (220, Op, Na, Op); (221, Op, Na, Op); (224, Op, Op, Op); (225, Op, Na, Op); (226, Op, Na, Op);
    (227, Ro, Ro, Op); (228, Op, Op, Op); (229, Op, Op, Op); (229, Op, Op, Op); (230, Op, Op, Op);
    (230, Op, Op, Op); (231, Op, Op, Op); (232, Op, Op, Op); (233, Op, Na, Op); (234, Op, Na, Rq);
    (238, Op, Op, Op)]);
  (* line 413: General lighting (0x0290) *)
  (2, 144, [(128, Rq, Rq, Rq); (144, Op, Op, Op); (145, Op, Op, Op); (148, Op, Op, Op); (149, Op, Op, Op);
    (176, Op, Op, Op); (177, Op, Op, Op); (177, Op, Op, Op); (177, Op, Op, Op); (178, Op, Op, Op);
    (179, Op, Op, Op); (180, Op, Na, Op); (181, Op, Na, Op); (182, Rq, Rq, Op); (183, Op, Op, Op);
    (184, Op, Op, Op); (185, Op, Op, Op); (186, Op, Op, Op); (187, Op, Op, Op); (188, Op, Op, Op);
    (189, Op, Op, Op); (190, Op, Op, Op); (191, Op, Na, Op); (192, Op, Op, Op)]);
  (* line 441: Storage battery (0x027D) *)
  (2, 125, [(131, Op, Na, Op); (137, Rq, Na, Op); (140, Rq, Na, Op); (151, Rq, Op, Op); (152, Rq, Op, Op);
    (160, Rq, Na, Op); (161, Rq, Na, Op); (162, Rq, Na, Op); (163, Rq, Na, Op); (164, Rq, Na, Op);
    (165, Rq, Na, Op); (166, Op, Op, Op); (167, Op, Op, Op); (168, Rq, Na, Op); (169, Rq, Na, Op);
    (170, Rq, Rq, Rq); (171, Rq, Rq, Rq); (193, Rq, Op, Rq); (194, Rq, Op, Rq); (199, Op, Na, Op);
    (200, Op, Na, Op); (200, Rq, Na, Op); (201, Op, Na, Op); (201, Rq, Na, Op); (202, Op, Na, Op);
    (203, Op, Na, Op); (204, Op, Op, Op); (205, Op, Op, Op); (206, Op, Op, Op); (207, Rq, Na, Rq);
    (207, Rq, Na, Rq); (208, Op, Na, Op); (209, Op, Na, Op); (210, Op, Na, Op); (211, Op, Na, Op);
    (212, Op, Na, Op); (213, Op, Na, Op); (214, Op, Na, Op); (215, Na, Op, Na); (216, Op, Na, Op);
    (217, Na, Op, Na); (218, Rq, Rq, Rq); (218, Rq, Rq, Rq); (218, Rq, Rq, Rq); (218, Rq, Rq, Rq);
    (219, Op, Na, Op); (219, Rq, Na, Op); (220, Op, Na, Op); (221, Op, Na, Op); (222, Op, Na, Op);
    (223, Op, Na, Op); (224, Op, Op, Op); (224, Op, Op, Op); (225, Op, Op, Op); (225, Op, Op, Op);
    (226, Rc, Na, Op); (227, Rc, Na, Op); (228, Rc, Na, Op); (229, Op, Na, Op); (230, Rq, Na, Op);
    (231, Op, Op, Op); (232, Op, Op, Op); (233, Op, Op, Op); (234, Op, Op, Op); (235, Op, Op, Op);
    (236, Op, Op, Op); (237, Op, Op, Op); (238, Op, Op, Op); (239, Op, Na, Op)]);
  (* line 514: Package-type commercial air conditioner (indoor unit) (except those for facilities) (0x0156) *)
  (1, 86, [(128, Rq, Rq, Rq); (172, Rq, Na, Op); (174, Rq, Na, Op); (176, Rq, Rq, Rq); (179, Rq, Rq, Rq);
    (187, Op, Na, Op); (202, Rq, Na, Op); (219, Op, Na, Op)]);
  (* line 526: Rice cooker (0x03BB) *)
  (3, 187, [(144, Op, Op, Op); (145, Op, Op, Op); (146, Op, Op, Op); (176, Op, Na, Op); (177, Rq, Na, Op);
    (178, Ro, Ro, Op); (225, Op, Op, Op); (229, Op, Na, Op); (230, Op, Na, Op)]);
  (* line 539: High-voltage smart electric energy meter (0x028A) *)
  (2, 138, [(193, Rq, Na, Op); (194, Op, Na, Op); (195, Rq, Na, Op); (196, Rq, Na, Op); (197, Rq, Na, Op);
    (198, Rq, Na, Op); (199, Op, Na, Op); (202, Op, Na, Op); (203, Op, Na, Op); (204, Op, Na, Op);
    (205, Op, Na, Op); (206, Op, Na, Op); (211, Rq, Na, Op); (212, Rq, Na, Op); (224, Rq, Na, Op);
    (225, Rq, Rq, Op); (226, Rq, Na, Op); (227, Rq, Na, Op); (228, Op, Na, Op); (229, Rq, Na, Op);
    (230, Rq, Na, Op); (231, Rq, Na, Op)]);
  (* line 565: Cooking heater (0x03B9) *)
  (3, 185, [(150, Op, Op, Op); (161, Op, Op, Op); (162, Op, Op, Op); (177, Rq, Na, Op); (178, Op, Op, Op);
    (179, Na, Ro, Op); (224, Op, Op, Op); (227, Op, Op, Op); (231, Op, Op, Op)]);
  (* line 578: VOC sensor (0x001D) *)
  (0, 29, [(176, Op, Op, Op); (177, Op, Na, Rq); (224, Rq, Na, Op)]);
  (* line 585: Bathroom heater dryer (0x0273) *)
  (2, 115, [(144, Op, Op, Op); (145, Op, Op, Op); (146, Op, Op, Op); (148, Op, Op, Op); (149, Op, Op, Op);
    (150, Op, Op, Op); (176, Rq, Rq, Op); (176, Rq, Rq, Op); (177, Op, Op, Op); (178, Rq, Rq, Op);
    (178, Op, Op, Op); (179, Op, Op, Op); (180, Rq, Rq, Op); (181, Op, Op, Op); (182, Op, Op, Op);
    (183, Op, Op, Op); (186, Op, Na, Op); (187, Op, Na, Op); (194, Op, Op, Op); (207, Op, Op, Op);
    (224, Op, Na, Op); (225, Op, Op, Op); (225, Op, Op, Op)]);
  (* line 612: Commercial show case outdoor unit (0x03D4) *)
  (3, 212, [(170, Op, Na, Op); (176, Rq, Rq, Rq); (176, Rq, Rq, Rq); (190, Op, Na, Op); (202, Op, Op, Op);
    (202, Rq, Op, Op); (226, Op, Op, Op)]);
  (* line 623: Frequency regulation (0x02A7) *)
  (2, 167, [(140, Rq, Na, Op); (141, Rq, Na, Op); (192, Rq, Op, Op); (193, Rq, Rq, Op); (194, Rq, Rq, Op);
    (195, Rc, Rc, Op); (196, Rc, Rc, Op); (197, Op, Op, Op); (198, Op, Op, Op); (199, Op, Op, Op);
    (208, Rq, Na, Op); (209, Rq, Na, Op); (210, Rq, Na, Op); (211, Op, Na, Op); (212, Rc, Na, Op);
    (213, Rq, Na, Rq); (214, Rq, Na, Op); (215, Rq, Na, Op); (216, Rq, Na, Op); (217, Rq, Na, Op);
    (218, Rq, Na, Op); (219, Op, Na, Op); (220, Rq, Na, Op); (222, Rq, Na, Op); (223, Op, Na, Op);
    (224, Op, Na, Op); (225, Op, Na, Op); (226, Op, Na, Op); (227, Op, Na, Op); (228, Op, Na, Op);
    (229, Op, Na, Op); (230, Op, Na, Op); (231, Op, Na, Op); (232, Op, Na, Op)]);
  (* line 661: Fuel cell (0x027C) *)
  (2, 124, [(193, Op, Na, Op); (194, Op, Na, Op); (194, Rq, Na, Op); (195, Op, Na, Op); (196, Rq, Na, Op);
    (197, Rq, Na, Op); (198, Na, Op, Na); (198, Na, Op, Na); (199, Op, Na, Op); (200, Op, Na, Op);
    (201, Na, Op, Na); (202, Na, Op, Op); (202, Op, Op, Op); (203, Op, Na, Op); (203, Rq, Na, Rq);
    (204, Op, Na, Op); (205, Op, Na, Op); (205, Op, Na, Op); (206, Na, Op, Na); (206, Na, Op, Na);
    (208, Op, Na, Op); (208, Rq, Na, Op); (209, Rq, Rq, Op); (210, Rq, Rq, Op); (225, Op, Na, Op);
    (226, Op, Na, Op)]);
  (* line 691: Crime prevention sensor (0x0002) *)
  (0, 2, [(176, Op, Op, Op); (177, Rq, Na, Rq); (191, Na, Op, Na)]);
  (* line 698: Water flowmeter (0x0281) *)
  (2, 129, [(208, Op, Op, Op); (209, Op, Op, Op); (224, Rq, Na, Op); (225, Rq, Na, Op); (226, Op, Na, Op);
    (227, Op, Na, Rq); (228, Op, Na, Op); (229, Op, Op, Op); (230, Op, Op, Op); (231, Op, Na, Op)]);
  (* line 712: Home air conditioner (0x0130) *)
  (1, 48, [(128, Rq, Rq, Rq); (143, Rq, Rq, Rq); (144, Op, Op, Op); (145, Op, Op, Op); (146, Op, Op, Op);
    (148, Op, Op, Op); (149, Op, Op, Op); (150, Op, Op, Op); (160, Op, Op, Op); (160, Rq, Rq, Rq);
    (161, Op, Op, Op); (163, Op, Op, Op); (164, Op, Op, Op); (165, Op, Op, Op); (170, Op, Na, Op);
    (171, Op, Na, Op); (176, Rq, Rq, Rq); (177, Op, Op, Op); (178, Op, Op, Op); (179, Rq, Rq, Op);
    (180, Op, Op, Op); (181, Op, Op, Op); (182, Op, Op, Op); (183, Op, Op, Op); (184, Op, Na, Op);
    (185, Op, Na, Op); (186, Op, Na, Op); (187, Op, Na, Op); (187, Rq, Na, Op); (188, Op, Na, Op);
    (189, Op, Na, Op); (190, Op, Na, Op); (191, Op, Op, Op); (192, Op, Op, Op); (193, Op, Op, Op);
    (194, Op, Op, Op); (196, Op, Op, Op); (198, Op, Na, Op); (199, Op, Op, Op); (200, Op, Na, Op);
    (201, Op, Op, Op); (202, Op, Na, Op); (203, Op, Op, Op); (204, Op, Op, Op); (205, Op, Na, Op);
    (206, Na, Op, Na); (206, Op, Op, Op); (207, Op, Op, Op); (208, Na, Op, Na)]);
  (* line 765: Electric energy sensor (0x0022) *)
  (0, 34, [(224, Rq, Na, Op); (225, Op, Na, Op); (226, Op, Na, Op); (227, Op, Na, Op); (228, Op, Na, Op);
    (228, Op, Na, Op); (229, Op, Na, Op)]);
  (* line 776: Washer and dryer (0x03D3) *)
  (3, 211, [(144, Op, Op, Op); (145, Op, Op, Op); (146, Op, Op, Op); (176, Op, Na, Op); (178, Op, Op, Op);
    (208, Op, Op, Op); (209, Op, Op, Op); (210, Op, Op, Op); (211, Op, Na, Op); (212, Op, Na, Op);
    (213, Op, Na, Op); (214, Op, Op, Op); (215, Op, Op, Op); (216, Op, Op, Op); (219, Op, Na, Op);
    (220, Op, Na, Op); (223, Op, Na, Op); (225, Op, Op, Op); (226, Op, Na, Op); (227, Op, Op, Op);
    (228, Op, Op, Op); (229, Op, Op, Op); (230, Op, Op, Op); (231, Op, Op, Op); (232, Op, Op, Op);
    (233, Op, Op, Op); (234, Op, Op, Op); (235, Op, Op, Op); (236, Op, Op, Op); (237, Op, Na, Op);
    (238, Op, Op, Op); (239, Op, Na, Op)]);
  (* line 812: Bidirectional high voltage smart electric energy meter (0x028F) *)
  (2, 143, [(128, Rq, Op, Rq); (192, Rc, Na, Op); (193, Rq, Na, Op); (194, Op, Na, Op); (195, Rq, Na, Op);
    (196, Rq, Na, Op); (197, Rq, Na, Op); (198, Rq, Na, Op); (199, Op, Na, Op); (200, Rq, Na, Op);
    (202, Op, Na, Op); (203, Op, Na, Op); (204, Op, Na, Op); (205, Op, Na, Op); (206, Op, Na, Op);
    (207, Op, Na, Op); (208, Rq, Na, Op); (209, Op, Na, Op); (211, Rq, Na, Op); (212, Rq, Na, Op);
    (213, Op, Na, Op); (214, Op, Na, Op); (224, Rq, Na, Op); (225, Rq, Rq, Op); (226, Rq, Na, Op);
    (227, Rq, Na, Op); (228, Op, Na, Op); (229, Rq, Na, Op); (230, Rq, Na, Op); (231, Rq, Na, Op);
    (232, Rq, Na, Op); (234, Rq, Na, Op); (235, Rq, Na, Op); (237, Rq, Na, Op); (238, Op, Na, Op);
    (239, Rq, Rq, Op)]);
  (* line 852: Electrically operated rain sliding door/shutter (0x0263) *)
  (2, 99, [(137, Op, Na, Rq); (144, Op, Op, Rq); (208, Op, Op, Op); (209, Op, Op, Op); (210, Op, Op, Op);
    (224, Rq, Rq, Rq); (225, Op, Op, Op); (226, Op, Op, Op); (227, Op, Op, Op); (229, Op, Op, Op);
    (232, Op, Na, Rq); (233, Op, Op, Rq); (234, Op, Na, Rq); (237, Op, Op, Op); (238, Op, Op, Op);
    (239, Op, Op, Op)]);
  (* line 872: CO2 sensor (0x001B) *)
  (0, 27, [(224, Rq, Na, Op)]);
  (* line 877: Current sensor (0x0023) *)
  (0, 35, [(224, Rc, Na, Op); (225, Op, Na, Op); (226, Rc, Na, Op)]);
  (* line 884: EV Charger (0x02A1) *)
  (2, 161, [(197, Rq, Na, Op); (199, Rq, Na, Rq); (199, Rq, Na, Rq); (200, Op, Na, Op); (202, Op, Na, Op);
    (204, Rq, Na, Op); (204, Rq, Na, Op); (205, Na, Rq, Op); (206, Rq, Na, Op); (207, Rq, Na, Op);
    (208, Rq, Na, Op); (210, Op, Na, Op); (211, Op, Na, Op); (216, Op, Na, Op); (217, Na, Op, Na);
    (218, Rq, Rq, Rq); (226, Rq, Na, Op); (228, Rq, Na, Op); (230, Rq, Na, Op); (231, Op, Op, Op);
    (235, Op, Op, Op); (237, Op, Op, Op)]);
  (* line 910: Watt-hour meter (0x0280) *)
  (2, 128, [(224, Rq, Na, Op); (226, Rq, Na, Op); (227, Op, Na, Op)]);
  (* line 917: Emergency button (0x0003) *)
  (0, 3, [(177, Rq, Na, Rq); (191, Na, Op, Na)]);
  (* line 923: Household solar power generation (0x0279) *)
  (2, 121, [(131, Rq, Na, Op); (137, Rq, Na, Op); (140, Rq, Na, Op); (151, Rc, Op, Op); (152, Rc, Op, Op);
    (160, Rc, Rc, Op); (161, Rc, Rc, Op); (162, Rc, Op, Op); (176, Rc, Na, Op); (177, Rc, Na, Rq);
    (178, Rc, Na, Op); (179, Op, Na, Op); (180, Rc, Na, Op); (192, Op, Na, Op); (193, Rq, Rq, Op);
    (194, Rq, Na, Op); (195, Rc, Na, Op); (196, Rc, Na, Op); (208, Op, Na, Op); (208, Rq, Na, Op);
    (209, Rq, Na, Op); (224, Rq, Na, Op); (225, Rq, Na, Op); (226, Na, Op, Na); (227, Op, Na, Op);
    (228, Na, Op, Na); (229, Op, Op, Op); (230, Op, Op, Op); (231, Op, Op, Op); (232, Op, Op, Op);
    (232, Rq, Op, Op); (233, Op, Op, Op)]);
  (* line 959: Floor heater (0x027B) *)
  (2, 123, [(128, Rq, Rq, Rq); (144, Op, Op, Op); (145, Op, Op, Op); (146, Op, Op, Op); (148, Op, Op, Op);
    (149, Op, Op, Op); (150, Op, Op, Op); (209, Op, Na, Rq); (224, Rc, Rc, Op); (225, Rc, Rc, Op);
    (226, Op, Na, Op); (227, Op, Na, Op); (227, Op, Na, Op); (228, Op, Op, Op); (229, Op, Op, Op);
    (230, Op, Op, Op); (231, Op, Op, Op); (232, Op, Op, Op); (233, Op, Na, Op); (234, Op, Na, Op)]);
  (* line 983: Bath heating status sensor (0x0016) *)
  (0, 22, [(176, Op, Op, Op); (177, Rq, Na, Rq)]);
  (* line 989: Cold or hot water heat source equipment (0x027A) *)
  (2, 122, [(144, Op, Op, Op); (145, Op, Op, Op); (146, Op, Op, Op); (148, Op, Op, Op); (149, Op, Op, Op);
    (150, Op, Op, Op); (209, Op, Op, Rq); (210, Op, Op, Rq); (224, Op, Op, Op); (225, Rc, Rc, Op);
    (226, Rc, Rc, Op); (227, Op, Na, Op); (228, Op, Na, Op); (229, Op, Op, Op); (230, Op, Op, Op);
    (231, Op, Op, Op); (232, Op, Op, Op); (233, Op, Na, Op); (234, Op, Na, Op)]);
  (* line 1012: Smart electric energy meter for sub-metering (0x028D) *)
  (2, 141, [(211, Op, Na, Op); (212, Rq, Na, Op); (215, Rq, Na, Op); (216, Op, Na, Op); (217, Op, Na, Op);
    (224, Rq, Rq, Op); (225, Rq, Na, Op); (226, Rq, Na, Op); (227, Rq, Na, Op); (228, Rq, Na, Op);
    (231, Rq, Na, Op); (232, Rq, Na, Op); (233, Op, Na, Op); (234, Rq, Na, Op); (235, Rq, Na, Op)]);
  (* line 1031: Electrically operated blind/shade (0x0260) *)
  (2, 96, [(137, Op, Na, Rq); (144, Op, Op, Rq); (194, Op, Na, Rq); (195, Op, Na, Rq); (208, Op, Op, Op);
    (209, Op, Op, Op); (210, Op, Op, Op); (212, Op, Op, Rq); (224, Rq, Rq, Rq); (225, Op, Op, Op);
    (226, Op, Op, Op); (227, Op, Op, Op); (229, Op, Op, Op); (232, Op, Na, Rq); (233, Op, Op, Rq);
    (234, Op, Na, Rq); (238, Op, Op, Op); (239, Op, Op, Op)]);
  (* line 1053: Lighting system (0x02A3) *)
  (2, 163, [(176, Op, Op, Op); (192, Rq, Rq, Op); (193, Rq, Na, Op)]);
  (* line 1060: Ventilation fan (0x0133) *)
  (1, 51, [(128, Rq, Rq, Rq); (160, Op, Op, Op); (191, Op, Op, Op)]);
  (* line 1067: distributed generator's electric energy meter (0x028E) *)
  (2, 142, [(208, Rq, Na, Op); (209, Rq, Na, Op); (210, Rq, Na, Op); (211, Rq, Na, Op); (212, Rq, Na, Op);
    (213, Rc, Rq, Op); (214, Op, Na, Op); (218, Rc, Op, Op); (219, Rq, Na, Op); (224, Rc, Na, Op);
    (225, Rc, Na, Op); (226, Rc, Na, Op); (227, Rc, Na, Op); (228, Op, Na, Op); (229, Op, Na, Op);
    (230, Rc, Na, Op); (231, Rc, Na, Op); (232, Op, Na, Op); (233, Op, Na, Op); (234, Op, Na, Op)]);
  (* line 1091: Electric lock (0x026F) *)
  (2, 111, [(224, Rq, Rq, Rq); (225, Op, Op, Op); (226, Op, Na, Op); (227, Op, Na, Op); (228, Op, Na, Op);
    (229, Op, Na, Rq); (230, Op, Op, Op); (231, Op, Op, Rq)]);
  (* line 1103: Gas meter (0x0282) *)
  (2, 130, [(224, Rq, Na, Op); (226, Op, Na, Op)]);
  (* line 1109: Air conditioner ventilation fan (0x0134) *)
  (1, 52, [(128, Rq, Rq, Rq); (160, Op, Op, Op); (176, Op, Op, Op); (177, Op, Op, Op); (178, Op, Op, Rq);
    (179, Op, Op, Op); (180, Op, Op, Op); (185, Op, Na, Op); (186, Op, Na, Op); (190, Op, Na, Op);
    (191, Op, Op, Op); (192, Op, Na, Op); (193, Op, Na, Op); (194, Op, Na, Op); (202, Op, Na, Op);
    (208, Op, Na, Op); (209, Op, Na, Op); (210, Op, Na, Op); (211, Op, Na, Op); (212, Op, Na, Op);
    (213, Op, Na, Op); (224, Op, Op, Op)]);
  (* line 1135: Controller (0x05FF) *)
  (5, 255, [(192, Op, Na, Op); (193, Op, Na, Op); (194, Op, Op, Op); (195, Op, Na, Op); (196, Op, Na, Op);
    (197, Op, Na, Op); (198, Op, Na, Op); (199, Op, Na, Op); (199, Op, Na, Op); (200, Op, Na, Op);
    (200, Op, Na, Op); (201, Op, Na, Op); (201, Op, Na, Op); (202, Op, Na, Op); (202, Op, Na, Op);
    (203, Op, Na, Op); (203, Op, Na, Op); (204, Op, Na, Op); (205, Op, Na, Op); (206, Op, Na, Op);
    (207, Op, Na, Op); (224, Op, Na, Op)]);
  (* line 1161: Extended lighting system (0x02A4) *)
  (2, 164, [(176, Op, Op, Op); (192, Rq, Rq, Op); (193, Rq, Na, Op); (194, Rq, Na, Op); (195, Rq, Na, Op);
    (196, Rq, Na, Op); (197, Rq, Rq, Op); (198, Op, Op, Op); (199, Op, Op, Op)]);
  (* line 1174: Temperature sensor (0x0011) *)
  (0, 17, [(224, Rq, Na, Op)]);
  (* line 1179: Human detection sensor (0x0007) *)
  (0, 7, [(176, Op, Op, Op); (177, Rq, Na, Rq)]);
  (* line 1185: Refrigerator (0x03B7) *)
  (3, 183, [(160, Op, Op, Op); (161, Op, Op, Op); (164, Op, Op, Op); (165, Op, Na, Op); (166, Op, Na, Op);
    (168, Op, Op, Op); (169, Op, Op, Op); (173, Op, Op, Op); (176, Ro, Na, Op); (177, Op, Na, Rq);
    (178, Op, Na, Op); (179, Op, Na, Op); (180, Op, Na, Op); (181, Op, Na, Op); (182, Op, Na, Op);
    (209, Op, Na, Op); (210, Op, Na, Op); (211, Op, Na, Op); (212, Op, Na, Op); (213, Op, Na, Op);
    (216, Op, Na, Op); (218, Op, Na, Op); (220, Op, Na, Op); (224, Op, Na, Op); (226, Op, Op, Op);
    (227, Op, Op, Op); (228, Op, Op, Op); (229, Op, Op, Op); (230, Op, Op, Op); (233, Op, Op, Op);
    (234, Op, Op, Op); (235, Op, Op, Op); (236, Op, Op, Op); (237, Op, Op, Op)]);
  (* line 1223: Multiple input pcs (0x02A5) *)
  (2, 165, [(128, Rq, Op, Rq); (131, Rq, Na, Op); (137, Rq, Na, Op); (140, Rq, Na, Op); (151, Rq, Op, Op);
    (152, Rq, Op, Op); (208, Rq, Na, Op); (224, Rq, Na, Op); (227, Rq, Na, Op); (231, Rq, Na, Op);
    (232, Rq, Na, Op)]);
  (* line 1238: Air cleaner (0x0135) *)
  (1, 53, [(128, Rq, Rq, Rq); (160, Op, Op, Op); (192, Op, Na, Op); (193, Op, Na, Op); (194, Op, Op, Op);
    (225, Op, Na, Op)]);
  (* line 1248: Low-voltage smart electric energy meter (0x0288) *)
  (2, 136, [(192, Rc, Na, Op); (208, Rq, Na, Op); (211, Op, Na, Op); (215, Rq, Na, Op); (224, Rq, Na, Op);
    (225, Rq, Na, Op); (226, Rq, Na, Op); (227, Rc, Na, Op); (228, Rc, Na, Op); (229, Rq, Rq, Op);
    (231, Rq, Na, Op); (232, Rq, Na, Op); (234, Rq, Na, Op); (235, Rc, Na, Op); (236, Op, Na, Op);
    (237, Op, Op, Op); (238, Rq, Na, Op); (239, Rq, Rq, Op)])
].
