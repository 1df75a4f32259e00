(** Generated by tools/gen_mandb.py from net/echonet/database_manufacturers.go:
    the calls of initManufactures (L9-L244) in file order. *)

From Coq Require Import String.
From Verif Require Import Go.
Local Open Scope Z_scope.

(** database_manufacturers.go L9-L244: code and name of each newManufacture call. *)
Definition man_table : list (Z * string) :=
  [
  (0x000133, "afterFIT Co., Ltd."%string);
  (0x00002F, "AIPHONE CO., LTD."%string);
  (0x00011A, "ACCESS CO.,LTD."%string);
  (0x00002C, "AFT CO.,LTD"%string);
  (0x000068, "AISIN CORPORATION"%string);
  (0x000079, "Anritsu Engineering Co.,Ltd,"%string);
  (0x00007F, "ANRITSU CUSTOMER SUPPORT CO., LTD."%string);
  (0x000110, "ASUKA SOLUTION COMPANY LIMITED"%string);
  (0x000096, "Azbil Corporation"%string);
  (0x0000FD, "Bellnix Co.,LTD"%string);
  (0x0000CC, "Bosch Home Comfort Japan, Inc."%string);
  (0x00006F, "BUFFALO INC."%string);
  (0x0000B6, "Bunka Shutter Co., Ltd"%string);
  (0x000017, "Carrier Japan Corporation"%string);
  (0x0000D2, "CHOFUKOSAN.Co.Ltd"%string);
  (0x000088, "CHOFU SEISAKUSHO CO.,LTD."%string);
  (0x0000D5, "Choshu Industry Co., Ltd."%string);
  (0x0000A3, "Chubu Electric Power Grid Co.,Inc."%string);
  (0x000136, "Chuo Bussan Co.,Ltd."%string);
  (0x0000FB, "CICO CORPORATION"%string);
  (0x0000F8, "CIMX INITIATIVE INC."%string);
  (0x000123, "Contec Co., Ltd."%string);
  (0x000130, "COOLDESIGN Corporation"%string);
  (0x000067, "CORONA CORPORATION"%string);
  (0x00013B, "Crossdoor Inc."%string);
  (0x000143, "Deye Energy Japan Co., Ltd."%string);
  (0x00009C, "Diamond Electric Mfg.Co.,Ltd."%string);
  (0x000080, "DIAMOND&ZEBRA ELECTRIC MFG.CO.,LTD."%string);
  (0x000119, "DAIHEN Corporation"%string);
  (0x000008, "DAIKIN INDUSTRIES,LTD."%string);
  (0x000015, "Daikin Systems&Solutions Laboratory Ltd."%string);
  (0x000141, "DAIKO ELECTRIC CO.,LTD."%string);
  (0x00004F, "Daiwa House Industry co.,Ltd"%string);
  (0x000103, "Data Technology Inc."%string);
  (0x0000E3, "DDL Co.,Ltd"%string);
  (0x0000AD, "Delta Electronics (Japan), Inc."%string);
  (0x0000BE, "DENKEN Co.,Ltd."%string);
  (0x0000F4, "DENSO AIRCOOL CORPORATION"%string);
  (0x00003C, "DENSO Corporation"%string);
  (0x000109, "DENSO Co.,LTD."%string);
  (0x00012B, "DENSO WAVE INCORPORATED"%string);
  (0x000113, "EBARA JITSUGYO CO., LTD"%string);
  (0x000057, "ELIIYPower Co.,ltd"%string);
  (0x00012E, "Eneres Co.,Ltd."%string);
  (0x000041, "ENEGATE CO.,LTD."%string);
  (0x00010A, "ENERGY GAP CORPORATION"%string);
  (0x0000F3, "Energy Gateway, Inc"%string);
  (0x00013F, "Energy Pool Japan K.K."%string);
  (0x0000F2, "Energy Solutions Inc."%string);
  (0x000072, "Eneres Co.,Ltd."%string);
  (0x0000DD, "EneStone Corporation"%string);
  (0x000132, "EX4Energy, Inc."%string);
  (0x000055, "FAMILYNET JAPAN CORPORATION"%string);
  (0x0000F6, "Field Logic Inc."%string);
  (0x00012F, "FORMOSA BIO AND ENERGY CORP JAPAN"%string);
  (0x0000CB, "Fuji Electric Co.,Ltd"%string);
  (0x0000FC, "FUJI INDUSTRIAL CO.,Ltd."%string);
  (0x000051, "Fuji IT Co.,Ltd."%string);
  (0x00008A, "FUJITSU GENERAL LIMITED"%string);
  (0x00004E, "FUJITSU LIMITED"%string);
  (0x000090, "Fujitsu Component Limited"%string);
  (0x0000DE, "FUJIFILM Business Innovation Japan Corp"%string);
  (0x000097, "Future Technology Laboratories, Inc."%string);
  (0x00009B, "GASTAR Co.,Ltd"%string);
  (0x00008F, "Glamo Inc."%string);
  (0x000129, "GoodWe Japan K.K"%string);
  (0x000134, "GoodWe Technologies Co.,Ltd."%string);
  (0x00009F, "GS Yuasa International Ltd"%string);
  (0x00013A, "GUGEN,Inc."%string);
  (0x000122, "Hanwha Q CELLS Japan CO.,LTD."%string);
  (0x000001, "Hitachi, Ltd."%string);
  (0x000022, "Hitachi Global Life Solutions, Inc."%string);
  (0x000040, "Hitachi High-Tech Solutions Corporation"%string);
  (0x000044, "Hitachi Industrial Equipment Systems Co.,Ltd."%string);
  (0x0000E5, "Hitachi Power Solutions Co.,Ltd."%string);
  (0x0000E6, "Hokkaido Electrical Safety Services Foundation"%string);
  (0x0000B8, "Hokkaido Electric Power Network, Inc."%string);
  (0x0000BB, "Hokuriku Electric Power Transmission & Distribution Company"%string);
  (0x0000A1, "Honda R&D Co., Ltd."%string);
  (0x000115, "HUAWEI TECHNOLOGIES JAPAN K.K."%string);
  (0x0000B0, "idea co.,ltd. "%string);
  (0x0000AC, "IDEC COROPRATION"%string);
  (0x00013E, "i GRID SOLUTIONS Inc."%string);
  (0x00004D, "INABA DENKI SANGYO CO.,LTD."%string);
  (0x000056, "iND Co.,Ltd"%string);
  (0x0000ED, "INFINI Co. LTD"%string);
  (0x000124, "INTEC Inc."%string);
  (0x0000B1, "Internet Initiative Japan Inc."%string);
  (0x000087, "I-O DATA DEVICE,INC."%string);
  (0x00006B, "ISB Corporation"%string);
  (0x00010F, "Iwatani Corporation"%string);
  (0x000081, "IWATSU ELECTRIC CO., LTD."%string);
  (0x0000C3, "Japan Electric Meters Inspection Corporation"%string);
  (0x0000F7, "JCity,Inc."%string);
  (0x0000CA, "JSP CO.,LTD."%string);
  (0x0000D7, "Kaga Electronics co.,ltd."%string);
  (0x000077, "Kanagawa Institute of Technology"%string);
  (0x000063, "Kawamura Electric Inc."%string);
  (0x0000F0, "KANEKA CORPORATION"%string);
  (0x00010B, "KITANIHON ELECTRIC CABLE CO.,LTD."%string);
  (0x0000E8, "KOIZUMI LIGHTING TECHNOLOGY CORP."%string);
  (0x00003B, "KYOCERA Corporation"%string);
  (0x00008C, "Kyuden Technosystems Corporation"%string);
  (0x0000BF, "KYUSHU ELECTRIC POWER TRANSMISSION AND DISTRIBUTION CO.,INC."%string);
  (0x000140, "Landis+Gyr AG"%string);
  (0x0000F1, "Laplace Systems Co., Ltd."%string);
  (0x000135, "LinkJapan Inc."%string);
  (0x000125, "LiveSmart KK"%string);
  (0x000025, "LIXIL Corporation"%string);
  (0x0000E0, "Looop Inc"%string);
  (0x00010C, "MAX CO., LTD."%string);
  (0x000078, "Maxell, Ltd."%string);
  (0x000058, "Mediotec Corporation"%string);
  (0x000120, "Meisei electric co.,ltd."%string);
  (0x000083, "Melco Techno Yokohama Corporation"%string);
  (0x000006, "Mitsubishi Electric Corp."%string);
  (0x000034, "MITSUBISHI ELECTRIC ENGINEERING COMPANY LIMITED"%string);
  (0x000105, "Mitsubishi Electric Lighting Corporation"%string);
  (0x00012A, "Monochrome Inc."%string);
  (0x00011D, "mui Lab, Inc."%string);
  (0x0000D4, "Murata Manufacturing Co.,Ltd."%string);
  (0x000106, "Nature Inc."%string);
  (0x000009, "NEC Corp."%string);
  (0x000118, "NEC Magnus Communications, Ltd"%string);
  (0x000073, "NEC Platforms, Ltd."%string);
  (0x000091, "NEC Platforms, Ltd."%string);
  (0x0000E2, "NextDrive Inc."%string);
  (0x000104, "Next Energy & Resources Co., Ltd."%string);
  (0x0000B2, "NF Blossom Technologies, Inc."%string);
  (0x0000A5, "Nichibei Co., Ltd."%string);
  (0x00006C, "NICHICON CORPORATION"%string);
  (0x0000EB, "NICHICON (KAMEOKA) CORPORATION"%string);
  (0x000102, "NICHICON (KUSATSU) CORPORATION"%string);
  (0x000112, "NICHIEI INTEC CO., LTD"%string);
  (0x000071, "NIHON SANGYO CO.,LTD."%string);
  (0x0000DC, "NIHON TECHNO CO.,LTD."%string);
  (0x00013D, "NIPPON GAS CO.,LTD."%string);
  (0x00008D, "NIPPON TELEGRAPH AND TELEPHONE CORPORATION"%string);
  (0x000047, "NIPPON TELEGRAPH AND TELEPHONE EAST CORPORATION"%string);
  (0x000086, "NIPPON TELEGRAPH AND TELEPHONE WEST CORPORATION"%string);
  (0x000036, "NISSIN SYSTEMS CO., LTD."%string);
  (0x0000B7, "Nitto Kogyo Corporation"%string);
  (0x000054, "NORITZ CORP."%string);
  (0x00007C, "NSW Inc."%string);
  (0x0000A0, "NTT Advanced Technology Corporation"%string);
  (0x000023, "NTT COMWARE CORPORATION"%string);
  (0x000061, "NTT DATA INTELLILINK Corporation"%string);
  (0x0000E9, "NTT SMILE ENERGY,Inc."%string);
  (0x0000F5, "ODELIC CO., LTD."%string);
  (0x000012, "Oi Electric Co., Ltd"%string);
  (0x00006A, "OKAYA & CO., LTD."%string);
  (0x000114, "OkayaKiden Co.,Ltd."%string);
  (0x000137, "OkayaKiden Co.,Ltd."%string);
  (0x000048, "Oki Electric Industry Co., Ltd."%string);
  (0x000064, "OMRON SOCIAL SOLUTIONS CO.,LTD."%string);
  (0x00012C, "Onamba Co., Ltd."%string);
  (0x0000D8, "OSAKI DATATECH CO.,LTD."%string);
  (0x000052, "OSAKI ELECTRIC CO.,LTD."%string);
  (0x000127, "Paloma Co.,Ltd."%string);
  (0x00000B, "Panasonic Holdings Corporation"%string);
  (0x0000DA, "Panasonic Commercial Equipment Systems Co.,Ltd."%string);
  (0x0000FE, "Panasonic Ecology Systems Co.,Ltd."%string);
  (0x0000FA, "Plat'Home Co."%string);
  (0x000082, "PURPOSE CO.,LTD."%string);
  (0x000139, "RATOC Systems, Inc."%string);
  (0x000059, "Rinnai Corporation"%string);
  (0x000128, "SAIKOH ENGINEERING Co.,Ltd."%string);
  (0x00011E, "SAKAIGAWA CO., LTD"%string);
  (0x00011C, "SANDEN RETAIL SYSTEMS CORPORATION"%string);
  (0x00010E, "SANIX INCORPORATED"%string);
  (0x0000BA, "SankyoTateyama, Inc."%string);
  (0x0000C5, "SANWA SHUTTER CORPORATION"%string);
  (0x000093, "SATORI ELECTRIC CO.,LTD."%string);
  (0x000107, "SEIKO ELECTRIC CO.,LTD."%string);
  (0x00003A, "SEKISUI HOUSE, LTD."%string);
  (0x000005, "Sharp Corp"%string);
  (0x000131, "Shenzhen Eternalplanet Energy Pingshan Ltd."%string);
  (0x0000AE, "SHIKOKU ELECTRIC POWER CO.,INC."%string);
  (0x00002E, "SHIKOKU INSTRUMENTATION CO.,LTD"%string);
  (0x0000CE, "SHINDENGEN ELECTRIC MANUFACTURING CO.LTD."%string);
  (0x00010D, "Shizen Connect Inc."%string);
  (0x0000A8, "Smart Power System. Co,. Ltd."%string);
  (0x0000DF, "SMA Japan K.K."%string);
  (0x000100, "Smart Solar Corporation"%string);
  (0x00007E, "SMK Corporation"%string);
  (0x0000E1, "SoftBank Corp."%string);
  (0x00011B, "SolaX Power Network Technology (Zhe jiang) Co. , Ltd."%string);
  (0x000060, "Sony Computer Science Laboratories, Inc."%string);
  (0x00006E, "Soundvision co.,ltd."%string);
  (0x000108, "SOUSEI Technology Inc."%string);
  (0x000116, "Sungrow Power Supply Co., Ltd."%string);
  (0x000101, "Sunpot Co., Ltd"%string);
  (0x0000DB, "Suntech Power Japan Corporation"%string);
  (0x00003D, "SUMITOMO ELECTRIC INDUSTRIES, LTD."%string);
  (0x00003E, "SUMITOMO ELECTRIC NETWORKS, INC."%string);
  (0x00012D, "TACHIKAWA CORPORATION"%string);
  (0x000085, "TAKAOKA TOKO CO.,LTD"%string);
  (0x0000AF, "Takara Standard Co.,Ltd"%string);
  (0x0000E4, "technoeye Inc."%string);
  (0x0000FF, "TEPCO Energy Partner, Inc."%string);
  (0x0000EE, "TESSERA TECHNOLOGY INC."%string);
  (0x0000B5, "The Chugoku Electric Power Co., Ltd"%string);
  (0x00009A, "The Kansai Electric Power Co., Inc."%string);
  (0x0000CD, "TOCLAS CORPORATION"%string);
  (0x000126, "Togami Electric Mfg.co.,Ltd."%string);
  (0x0000F9, "TOHO ELECTRONICS INC."%string);
  (0x0000C2, "Tohoku Electric Meter Industry Co.,Inc"%string);
  (0x0000BC, "TohokuElectric Power Network Company,Incorporated"%string);
  (0x000099, "Tokyo Electric Power Company Holdings, Inc."%string);
  (0x0000B3, "TOPPERS Project, Inc."%string);
  (0x000111, "Topre Corporation"%string);
  (0x000016, "Toshiba Corporation"%string);
  (0x000043, "TOSHIBA DEVELOPMENT & ENGINEERING CORPORATION"%string);
  (0x0000EC, "Toshiba Energy Systems & Solutions Corporation"%string);
  (0x0000D9, "Toshiba IT & Control Systems Corporation"%string);
  (0x000069, "Toshiba Lifestyle Products & Services Corporation"%string);
  (0x00001B, "TOSHIBA LIGHTING & TECHNOLOGY CORPORATION"%string);
  (0x000035, "Toshiba Toko Meter Systems Co.,Ltd."%string);
  (0x000050, "TOTO LTD."%string);
  (0x0000EF, "TOYOTA INDUSTRIES CORPORATION"%string);
  (0x000121, "TOYOTA MOTOR CORPORATION"%string);
  (0x00011F, "TOYOTA TSUSHO CORPORATION"%string);
  (0x00005C, "Tranceboot Co.,Ltd."%string);
  (0x000138, "TRENDE Inc."%string);
  (0x000076, "TSP CO.,Ltd"%string);
  (0x0000D0, "TSUBAKIMOTO CHAIN CO."%string);
  (0x0000C1, "Tsuken Electric Ind Co., Ltd."%string);
  (0x000053, "Ubiquitous AI Corporation"%string);
  (0x000117, "WWB Corporation"%string);
  (0x000095, "Yamato Denki Co.,Ltd."%string);
  (0x000142, "Yanekara Inc"%string);
  (0x00009E, "YASKAWA ELECTRIC CORPORATION"%string);
  (0x00007A, "ZUKEN ELMIC,INC."%string);
  (0x0000B4, "4R Energy Corporation"%string);
  (0xFFFFFF, "Experimental"%string);
  (0xFFFFFE, "Undefined"%string)
  ].
