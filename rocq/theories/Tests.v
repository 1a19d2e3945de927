(** The tests of the repository (test/*_test.go, multipart_test.go): the value each test builds, encodes and decodes.
    [now] is time.Unix(time.Now().Unix(), 0). decimal.NewFromFloat of a literal with six decimals has its digits as
    coefficient and exponent -6. Not modelled: that reflect.DeepEqual tells a nil slice from an empty one, and the decoding
    of the PEM text of the key (test/t808_0x0a00_test.go:13-47), whose modulus is written here. *)
From Verif Require Import Base Bcd GoTime Decimal Env EntTerm EntPlat Registry Multipart.

(** "asdfg阿伯吃得", test/t808_0x0100_test.go:18 *)
Definition s_licence : bytes := [97; 115; 100; 102; 103; 233; 152; 191; 228; 188; 175; 229; 144; 131; 229; 190; 151].
(** "ABC阿博茨", test/t808_0x0102_test.go:12 *)
Definition s_auth : bytes := [65; 66; 67; 233; 152; 191; 229; 141; 154; 232; 140; 168].
(** "车牌号码", test/t808_0x0104_test.go:18, t808_0x8103_test.go:17 *)
Definition s_plate : bytes := [232; 189; 166; 231; 137; 140; 229; 143; 183; 231; 160; 129].
(** "王师傅", test/t808_0x0702_test.go:16 *)
Definition s_driver : bytes := [231; 142; 139; 229; 184; 136; 229; 130; 133].
(** "NS12345678", test/t808_0x0702_test.go:17 *)
Definition s_number : bytes := [78; 83; 49; 50; 51; 52; 53; 54; 55; 56].
(** "机构名称", test/t808_0x0702_test.go:18 *)
Definition s_company : bytes := [230; 156; 186; 230; 158; 132; 229; 144; 141; 231; 167; 176].
(** "鉴权码", test/t808_0x8100_test.go:14 *)
Definition s_key : bytes := [233; 137; 180; 230; 157; 131; 231; 160; 129].
(** "adasd:测试", test/t808_0x8105_test.go:13 *)
Definition s_command : bytes := [97; 100; 97; 115; 100; 58; 230; 181; 139; 232; 175; 149].
(** "10.1.1", test/t808_0x8108_test.go:14 *)
Definition s_version : bytes := [49; 48; 46; 49; 46; 49].
(** "hello测试测试", test/t808_0x8300_test.go:13 *)
Definition s_hello : bytes := [104; 101; 108; 108; 111; 230; 181; 139; 232; 175; 149; 230; 181; 139; 232; 175; 149].
(** "事件1", test/t808_0x8301_test.go:16 *)
Definition s_event1 : bytes := [228; 186; 139; 228; 187; 182; 49].
(** "事件2", test/t808_0x8301_test.go:20 *)
Definition s_event2 : bytes := [228; 186; 139; 228; 187; 182; 50].
(** "事件3", test/t808_0x8301_test.go:24 *)
Definition s_event3 : bytes := [228; 186; 139; 228; 187; 182; 51].
(** "今天星期几？", test/t808_0x8302_test.go:13 *)
Definition s_question : bytes := [228; 187; 138; 229; 164; 169; 230; 152; 159; 230; 156; 159; 229; 135; 160; 239; 188; 159].
(** "星期一", test/t808_0x8302_test.go:17 *)
Definition s_day1 : bytes := [230; 152; 159; 230; 156; 159; 228; 184; 128].
(** "星期二", test/t808_0x8302_test.go:21 *)
Definition s_day2 : bytes := [230; 152; 159; 230; 156; 159; 228; 186; 140].
(** "星期三", test/t808_0x8302_test.go:25 *)
Definition s_day3 : bytes := [230; 152; 159; 230; 156; 159; 228; 184; 137].
(** "点播项1", test/t808_0x8303_test.go:14 *)
Definition s_item1 : bytes := [231; 130; 185; 230; 146; 173; 233; 161; 185; 49].
(** "点播项2", test/t808_0x8303_test.go:15 *)
Definition s_item2 : bytes := [231; 130; 185; 230; 146; 173; 233; 161; 185; 50].
(** "点播项3", test/t808_0x8303_test.go:16 *)
Definition s_item3 : bytes := [231; 130; 185; 230; 146; 173; 233; 161; 185; 51].
(** "测试test", test/t808_0x8304_test.go:13 *)
Definition s_news : bytes := [230; 181; 139; 232; 175; 149; 116; 101; 115; 116].
(** "+8619912345678", test/t808_0x8400_test.go:13 *)
Definition s_phone : bytes := [43; 56; 54; 49; 57; 57; 49; 50; 51; 52; 53; 54; 55; 56].
(** "+8619942351698", test/t808_0x8401_test.go:16, :21 *)
Definition s_mobile : bytes := [43; 56; 54; 49; 57; 57; 52; 50; 51; 53; 49; 54; 57; 56].
(** "老王", test/t808_0x8401_test.go:17, :22 *)
Definition s_wang : bytes := [232; 128; 129; 231; 142; 139].
(** All the texts of the tests that go through GB18030 (test/) *)
Definition test_texts : list bytes :=
  [s_licence; s_auth; s_plate; s_driver; s_number; s_company; s_key; s_command; s_version; s_hello; s_event1; s_event2; s_event3; s_question; s_day1; s_day2; s_day3; s_item1; s_item2; s_item3; s_news; s_phone; s_mobile; s_wang].
(** The modulus of the key of the tests (test/t808_0x0a00_test.go:13-27) *)
Definition test_modulus : Z := 151790685293140587653958876595883351136750701300895606701181863043272413757144632903861294277199914355022259784035717998072241812204915181621769329952685996229758683212918898668239244649656537495201269860073911575102741712279216797745366621301784620752002371982570921047643430094609207590707514967148763687421.
(** The extra items of the position reports (test/t808_0x0200_test.go:22-47 and the same in 0201, 0500) *)
Definition test_extras : list (option extra) := map (fun v => Some (new_extra v))
  [X01 10; X2A 16; X2B 10086; X02 32; X03 64; X04 128; X11 1 (Some 121313); X12 1 234 1; X13 1006545 234 1; X25 3344322; X30 12; X31 23].
(** The parameters (test/t808_0x0104_test.go:13-19, t808_0x8103_test.go:12-18) *)
Definition test_params (env : Env) : list (option param) :=
  [Some (set_byte 0x84 24); Some (set_bytes 0x110 [1; 2; 3; 4; 5; 6; 7; 8]); Some (set_uint16 0x31 100);
   Some (set_uint32 0x46 64000); Some (set_string env 0x83 s_plate)].
(** The position of the tests without extra items (e.g. test/t808_0x0801_test.go:19-28), [st] its status *)
Definition test_place (st : Z) (now : gotime) (xs : list (option extra)) : t0200 :=
  T0200 2342 st (Dec 23562345 (-6)) (Dec (-128323123) (-6)) 2345 160 72 now xs.
(** The circle and the rectangle of the tests of areas (test/t808_0x8600_test.go:15-36, t808_0x8602_test.go:15-38), with their ID *)
Definition test_circle (now : gotime) (id : Z) : circle := Circle id 1 (Dec 123456789 (-6)) (Dec 34567891 (-6)) 100 (Limits now now 1024 60).
(** test/t808_0x8602_test.go:15-38 *)
Definition test_rect (now : gotime) (id : Z) : rect :=
  Rect id 1 (Dec 123456523 (-6)) (Dec (-23234212) (-6)) (Dec 23456534 (-6)) (Dec (-13456521) (-6)) (Limits now now 1024 60).

(** The tests that compare what is decoded with the value, as it is after Encode (test/t808_0x*_test.go); the one of 0x0702 is apart *)
Definition compared (env : Env) (now : gotime) : list entity :=
  [
   E0001 (T0001 1024 123 0); (* test/t808_0x0001_test.go *)
   E0002; (* test/t808_0x0002_test.go *)
   E0003; (* test/t808_0x0003_test.go *)
   E0100 (T0100 19 19 [116; 101; 115; 116] [116; 57; 48; 48] [97; 98; 99; 49; 50; 51] 45 s_licence); (* test/t808_0x0100_test.go *)
   E0102 (T0102 s_auth); (* test/t808_0x0102_test.go *)
   E0104 (T0104 234 (test_params env)); (* test/t808_0x0104_test.go *)
   E0107 (T0107 123 [119; 101; 114] [49; 50; 51; 49; 50; 51; 49] [116; 56; 48; 48] [56; 54; 49; 56; 50; 48; 50; 51; 55; 52; 57; 50; 57] [118; 48; 46; 49; 46; 49] [118; 48; 46; 49; 46; 50] 23 34); (* test/t808_0x0107_test.go *)
   E0108 (T0108 1 2); (* test/t808_0x0108_test.go *)
   E0301 (T0301 96); (* test/t808_0x0301_test.go *)
   E0302 (T0302 1234 65); (* test/t808_0x0302_test.go *)
   E0303 (T0303 65 1); (* test/t808_0x0303_test.go *)
   E0700 (T0700 1 26 [1; 3; 5; 7; 9]); (* test/t808_0x0700_test.go *)
   E0701 (T0701 3875 [1; 3; 5; 7; 9]); (* test/t808_0x0701_test.go *)
   E0704 (T0704 1 [test_place 8 now []]); (* test/t808_0x0704_test.go *)
   E0705 (T0705 (13457 * 1000000000 + 999 * 1000000) [Can (repeat 0 4) (repeat 0 8); Can (repeat 0 4) (repeat 0 8)]); (* test/t808_0x0705_test.go *)
   E0800 (T0800 3456 2 2 23 17); (* test/t808_0x0800_test.go *)
   E0802 (T0802 1234 [I0802 345 0 24 12 (test_place 8 now [])]); (* test/t808_0x0802_test.go *)
   E0900 (TData 1 [0x34; 0x45; 0x23; 0x45]); (* test/t808_0x0900_test.go *)
   E0901 (T0901 (repeat 0 768)); (* test/t808_0x0901_test.go *)
   E0A00 (T0A00 (Some (65537, Some test_modulus))); (* test/t808_0x0a00_test.go *)
   E8001 (T8001 1234 0x8103 3); (* test/t808_0x8001_test.go *)
   E8003 (T8003 1234 [123; 345; 789]); (* test/t808_0x8003_test.go *)
   E8100 (T8100 1234 3 s_key); (* test/t808_0x8100_test.go *)
   E8103 (T8103 (test_params env)); (* test/t808_0x8103_test.go *)
   E8104; (* test/t808_0x8104_test.go *)
   E8105 (TText 1 s_command); (* test/t808_0x8105_test.go *)
   E8106 (TIds [123; 456; 789]); (* test/t808_0x8106_test.go *)
   E8107; (* test/t808_0x8107_test.go *)
   E8108 (T8108 1 [97; 98; 99; 49; 50] s_version 102400 [1; 2; 3; 4]); (* test/t808_0x8108_test.go *)
   E8201; (* test/t808_0x8201_test.go *)
   E8202 (T8202 5000 200); (* test/t808_0x8202_test.go *)
   E8203 (T8202 1024 1231); (* test/t808_0x8203_test.go *)
   E8300 (TText 57 s_hello); (* test/t808_0x8300_test.go *)
   E8301 (T8301 2 [Labelled 1 s_event1; Labelled 2 s_event2; Labelled 3 s_event3]); (* test/t808_0x8301_test.go *)
   E8302 (T8302 2 s_question [Labelled 1 s_day1; Labelled 2 s_day2; Labelled 3 s_day3]); (* test/t808_0x8302_test.go *)
   E8303 (T8303 3 [s_item1; s_item2; s_item3]); (* test/t808_0x8303_test.go *)
   E8304 (T8304 65 s_news); (* test/t808_0x8304_test.go *)
   E8400 (T8400 1 s_phone); (* test/t808_0x8400_test.go *)
   E8401 (T8401 3 [Contact 3 s_mobile s_wang; Contact 3 s_mobile s_wang]); (* test/t808_0x8401_test.go *)
   E8500 (T8500 1); (* test/t808_0x8500_test.go *)
   E8600 (T8600 1 [test_circle now 1; test_circle now 2]); (* test/t808_0x8600_test.go *)
   E8601 (TIds [123; 456; 789]); (* test/t808_0x8601_test.go *)
   E8602 (T8602 1 [test_rect now 1; test_rect now 2]); (* test/t808_0x8602_test.go *)
   E8603 (TIds [123; 456; 789]); (* test/t808_0x8603_test.go *)
   E8604 (T8604 1 1 (Limits now now 1024 60) [Vertex (Dec 123234561 (-6)) (Dec (-23432567) (-6)); Vertex (Dec 23341098 (-6)) (Dec (-12213435) (-6))]); (* test/t808_0x8604_test.go *)
   E8605 (TIds [123; 456; 789]); (* test/t808_0x8605_test.go *)
   E8606 (T8606 1 123 now now [Point 1 1 (Dec 23562345 (-6)) (Dec (-128323123) (-6)) 15 11 (Some 300) (Some 60) (Some 200) (Some 25)]); (* test/t808_0x8606_test.go *)
   E8607 (TIds [123; 456; 789]); (* test/t808_0x8607_test.go *)
   E8700 (TData 26 [1; 3; 5; 7; 9]); (* test/t808_0x8700_test.go *)
   E8701 (TData 26 [1; 3; 5; 7; 9]); (* test/t808_0x8701_test.go *)
   E8702; (* test/t808_0x8702_test.go *)
   E8800 (T8800 1024 [123; 456; 789]); (* test/t808_0x8800_test.go *)
   E8802 (T8802 1 56 87 now now); (* test/t808_0x8802_test.go *)
   E8803 (T8803 (T8802 1 56 87 now now) 1); (* test/t808_0x8803_test.go *)
   E8804 (T8804 67 3500 0 0); (* test/t808_0x8804_test.go *)
   E8805 (T8805 10345 1); (* test/t808_0x8805_test.go *)
   E8900 (TData 1 [0x34; 0x45; 0x23; 0x45]); (* test/t808_0x8900_test.go *)
   E8A00 (T0A00 (Some (65537, Some test_modulus)))]. (* test/t808_0x8a00_test.go *)
(** The tests that only encode and decode (test/t808_0x0200_test.go, 0201, 0500, 0801, 0805, 8801) *)
Definition not_compared (env : Env) (now : gotime) : list entity :=
  [
   E0200 (test_place 0 now test_extras); (* test/t808_0x0200_test.go *)
   E0201 (T0201 123 (test_place 0 now test_extras)); (* test/t808_0x0201_test.go *)
   E0500 (T0201 123 (test_place 0 now test_extras)); (* test/t808_0x0500_test.go *)
   E0801 (T0801 (T0800 1024 1 0 13 28) (test_place 0 now []) (Some (Rdr (repeat 0 512) false))); (* test/t808_0x0801_test.go *)
   E0805 (T0805 2342 2 [1232313; 213214; 213123123]); (* test/t808_0x0805_test.go *)
   E8801 (T8801 28 456 360 1 5 50 50 50 50 50)]. (* test/t808_0x8801_test.go *)
(** The driver's identification (test/t808_0x0702_test.go:12-20); what is decoded is compared with the expiry date replaced (:31) *)
Definition test_driver (now : gotime) : t0702 := T0702 21 now 1 s_driver s_number s_company now.
(** The upload of multipart_test.go:10-15 *)
Definition test_upload : mpf := Mpf 19923476579 0x0100 123456 3.
(** The writes of multipart_test.go:16-18: part and content *)
Definition test_writes : list (Z * bytes) := [(2, [3; 4]); (1, [1; 2]); (3, [5; 6])].
