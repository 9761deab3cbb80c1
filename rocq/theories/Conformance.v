(** The project's own test vectors, run on the model.  test/box_types.cpp:22-2162 lists, for each box class, the octets of
    a payload and the text its toStringOnlyData must give, and test/box_types.cpp:2165-2208 checks that writeData, readData,
    getDataSize and toStringOnlyData agree with both.  The same table, fed to the model: this validates the transcription
    of the code; it is a test of the model and settles no property by itself. *)
From Verif Require Import Base BitIO BitSpec Boxes Box TimeSpec Time Print.
From Coq Require Import Ascii String List.
Import ListNotations.
Open Scope Z_scope.
Open Scope list_scope.

(** (class, type, payload, text), one line per entry of box_test_cases *)
Definition box_test_cases : list (kind * list Z * list Z * list Z) :=
  [
  (* co64 *) (K_co64, lit "co64", [0; 0; 0; 0; 0; 0; 0; 2; 1; 35; 69; 103; 137; 171; 205; 239; 137; 171; 205; 239; 1; 35; 69; 103],
     lit "Version=0 Flags=0x000000 EntryCount=2 ChunkOffsets=[0x123456789abcdef, 0x89abcdef01234567]");
  (* colr: nclx *) (K_colr, lit "colr", [110; 99; 108; 120; 1; 35; 35; 69; 69; 103; 128],
     lit "ColourType=""nclx"" ColourPrimaries=291 TransferCharacteristics=9029 MatrixCoefficients=17767 FullRangeFlag=true");
  (* colr: rICC *) (K_colr, lit "colr", [114; 73; 67; 67; 18; 52; 86; 120; 171],
     lit "ColourType=""rICC"" Profile=[0x12, 0x34, 0x56, 0x78, 0xab]");
  (* colr: nclc *) (K_colr, lit "colr", [110; 99; 108; 99; 1; 35; 69],
     lit "ColourType=""nclc"" Unknown=[0x1, 0x23, 0x45]");
  (* ctts: version 0 *) (K_ctts, lit "ctts", [0; 0; 0; 0; 0; 0; 0; 2; 1; 35; 69; 103; 18; 52; 86; 120; 137; 171; 205; 239; 120; 154; 188; 222],
     lit "Version=0 Flags=0x000000 EntryCount=2 Entries=[{SampleCount=19088743 SampleOffset=305419896}, {SampleCount=2309737967 SampleOffset=2023406814}]");
  (* ctts: version 1 *) (K_ctts, lit "ctts", [1; 0; 0; 0; 0; 0; 0; 2; 1; 35; 69; 103; 18; 52; 86; 120; 137; 171; 205; 239; 135; 101; 67; 34],
     lit "Version=1 Flags=0x000000 EntryCount=2 Entries=[{SampleCount=19088743 SampleOffset=305419896}, {SampleCount=2309737967 SampleOffset=-2023406814}]");
  (* dinf *) (K_container, lit "dinf", [],
     lit "");
  (* dref *) (K_dref, lit "dref", [0; 0; 0; 0; 18; 52; 86; 120],
     lit "Version=0 Flags=0x000000 EntryCount=305419896");
  (* url no location *) (K_url, lit "url ", [0; 0; 0; 1],
     lit "Version=0 Flags=0x000001");
  (* url location *) (K_url, lit "url ", [0; 0; 0; 0; 116; 115; 116; 0],
     lit "Version=0 Flags=0x000000 Location=""tst""");
  (* urn no name/location *) (K_urn, lit "urn ", [0; 0; 0; 1],
     lit "Version=0 Flags=0x000001");
  (* urn name/location *) (K_urn, lit "urn ", [0; 0; 0; 0; 49; 49; 49; 0; 116; 115; 116; 0],
     lit "Version=0 Flags=0x000000 Name=""111"" Location=""tst""");
  (* edts *) (K_container, lit "edts", [],
     lit "");
  (* elst: version 0 *) (K_elst, lit "elst", [0; 0; 0; 0; 0; 0; 0; 2; 1; 0; 0; 10; 1; 0; 0; 11; 0; 1; 0; 0; 2; 0; 0; 10; 2; 0; 0; 11; 0; 2; 0; 0],
     lit "Version=0 Flags=0x000000 EntryCount=2 Entries=[{TrackDuration=16777226 MediaTime=16777227 MediaRate=1.0000}, {TrackDuration=33554442 MediaTime=33554443 MediaRate=2.0000}]");
  (* elst: version 1 *) (K_elst, lit "elst", [1; 0; 0; 0; 0; 0; 0; 2; 1; 0; 0; 0; 0; 0; 0; 10; 1; 0; 0; 0; 0; 0; 0; 11; 0; 1; 0; 0; 2; 0; 0; 0; 0; 0; 0; 10; 2; 0; 0; 0; 0; 0; 0; 11; 0; 3; 0; 0],
     lit "Version=1 Flags=0x000000 EntryCount=2 Entries=[{TrackDuration=72057594037927946 MediaTime=72057594037927947 MediaRate=1.0000}, {TrackDuration=144115188075855882 MediaTime=144115188075855883 MediaRate=3.0000}]");
  (* emsg: version 0 *) (K_emsg, lit "emsg", [0; 0; 0; 0; 117; 114; 110; 58; 116; 101; 115; 116; 0; 102; 111; 111; 0; 0; 0; 3; 232; 0; 0; 0; 123; 0; 0; 11; 184; 0; 0; 171; 205; 115; 104; 105; 103; 117; 114; 101; 100; 111],
     lit "Version=0 Flags=0x000000 SchemeIdUri=""urn:test"" Value=""foo"" Timescale=1000 PresentationTimeDelta=123 EventDuration=3000 Id=43981 MessageData=""shiguredo""");
  (* emsg: version 1 *) (K_emsg, lit "emsg", [1; 0; 0; 0; 0; 0; 3; 232; 0; 0; 0; 0; 0; 0; 0; 123; 0; 0; 11; 184; 0; 0; 171; 205; 117; 114; 110; 58; 116; 101; 115; 116; 0; 102; 111; 111; 0; 115; 104; 105; 103; 117; 114; 101; 100; 111],
     lit "Version=1 Flags=0x000000 SchemeIdUri=""urn:test"" Value=""foo"" Timescale=1000 PresentationTime=123 EventDuration=3000 Id=43981 MessageData=""shiguredo""");
  (* esds *) (K_esds, lit "esds", [0; 0; 0; 0; 3; 128; 128; 128; 42; 18; 52; 67; 11; 104; 116; 116; 112; 58; 47; 47; 104; 111; 103; 101; 4; 128; 128; 128; 21; 18; 86; 18; 52; 86; 18; 52; 86; 120; 35; 69; 103; 137; 5; 128; 128; 128; 3; 17; 34; 51; 6; 128; 128; 128; 5; 17; 34; 51; 68; 85],
     lit "Version=0 Flags=0x000000 Descriptors=[{Tag=ESDescr DataSize=15 DataSizeWithSubDescriptors=42 ESID=4660 StreamDependenceFlag=false UrlFlag=true OcrStreamFlag=false StreamPriority=3 URLLength=0xb URLString=""http://hoge""}, {Tag=DecoderConfigDescr DataSize=13 DataSizeWithSubDescriptors=21 ObjectTypeIndication=0x12 StreamType=21 UpStream=true Reserved=false BufferSizeDB=1193046 MaxBitrate=305419896 AvgBitrate=591751049}, {Tag=DecSpecificInfo DataSize=3 Data=[0x11, 0x22, 0x33]}, {Tag=SLConfigDescr DataSize=5 Data=[0x11, 0x22, 0x33, 0x44, 0x55]}]");
  (* free *) (K_free, lit "free", [18; 52; 86],
     lit "Data=[0x12, 0x34, 0x56]");
  (* skip *) (K_skip, lit "skip", [18; 52; 86],
     lit "Data=[0x12, 0x34, 0x56]");
  (* ftyp *) (K_ftyp, lit "ftyp", [97; 98; 101; 109; 18; 52; 86; 120; 97; 98; 99; 100; 101; 102; 103; 104],
     lit "MajorBrand=""abem"" MinorVersion=305419896 CompatibleBrands=[{CompatibleBrand=""abcd""}, {CompatibleBrand=""efgh""}]");
  (* hdlr *) (K_hdlr, lit "hdlr", [0; 0; 0; 0; 18; 52; 86; 120; 97; 98; 101; 109; 0; 0; 0; 0; 0; 0; 0; 0; 0; 0; 0; 0; 65; 98; 101; 109; 97; 0],
     lit "Version=0 Flags=0x000000 PreDefined=305419896 HandlerType=""abem"" Name=""Abema""");
  (* ilst *) (K_container, lit "ilst", [],
     lit "");
  (* mdat *) (K_mdat, lit "mdat", [17; 34; 51],
     lit "Data=[0x11, 0x22, 0x33]");
  (* mdhd: version 0 *) (K_mdhd, lit "mdhd", [0; 0; 0; 0; 18; 52; 86; 120; 35; 69; 103; 137; 1; 2; 3; 4; 2; 3; 4; 5; 170; 14; 0; 0],
     lit "Version=0 Flags=0x000000 CreationTime=""1913-09-04T22:51:36Z"" ModificationTime=""1922-10-01T23:17:29Z"" Timescale=16909060 Duration=33752069 Pad=true Language=""jpn"" PreDefined=0");
  (* mdhd: version 1 *) (K_mdhd, lit "mdhd", [1; 0; 0; 0; 0; 0; 0; 0; 219; 210; 83; 75; 0; 0; 0; 0; 219; 210; 83; 75; 1; 2; 3; 4; 2; 3; 4; 5; 6; 7; 8; 9; 170; 14; 0; 0],
     lit "Version=1 Flags=0x000000 CreationTime=""2020-11-12T02:49:47Z"" ModificationTime=""2020-11-12T02:49:47Z"" Timescale=16909060 Duration=144964032628459529 Pad=true Language=""jpn"" PreDefined=0");
  (* mehd: version 0 *) (K_mehd, lit "mehd", [0; 0; 0; 0; 1; 35; 69; 103],
     lit "Version=0 Flags=0x000000 FragmentDuration=19088743");
  (* mehd: version 1 *) (K_mehd, lit "mehd", [1; 0; 0; 0; 1; 35; 69; 103; 137; 171; 205; 239],
     lit "Version=1 Flags=0x000000 FragmentDuration=81985529216486895");
  (* meta *) (K_meta, lit "meta", [0; 0; 0; 0],
     lit "Version=0 Flags=0x000000");
  (* mfhd *) (K_mfhd, lit "mfhd", [0; 0; 0; 0; 18; 52; 86; 120],
     lit "Version=0 Flags=0x000000 SequenceNumber=305419896");
  (* mfra *) (K_container, lit "mfra", [],
     lit "");
  (* mfro *) (K_mfro, lit "mfro", [0; 0; 0; 0; 18; 52; 86; 120],
     lit "Version=0 Flags=0x000000 Size=305419896");
  (* minf *) (K_container, lit "minf", [],
     lit "");
  (* moof *) (K_container, lit "moof", [],
     lit "");
  (* moov *) (K_container, lit "moov", [],
     lit "");
  (* mvex *) (K_container, lit "mvex", [],
     lit "");
  (* mvhd: version 0 *) (K_mvhd, lit "mvhd", [0; 0; 0; 0; 1; 35; 69; 103; 35; 69; 103; 137; 69; 103; 137; 171; 103; 137; 171; 205; 254; 220; 186; 153; 1; 35; 0; 0; 0; 0; 0; 0; 0; 0; 0; 0; 0; 0; 0; 0; 0; 0; 0; 0; 0; 0; 0; 0; 0; 0; 0; 0; 0; 0; 0; 0; 0; 0; 0; 0; 0; 0; 0; 0; 0; 0; 0; 0; 0; 0; 0; 0; 0; 0; 0; 0; 0; 0; 0; 0; 0; 0; 0; 0; 0; 0; 0; 0; 0; 0; 0; 0; 0; 0; 0; 0; 171; 205; 239; 1],
     lit "Version=0 Flags=0x000000 CreationTime=""1904-08-08T22:25:43Z"" ModificationTime=""1922-10-01T23:17:29Z"" Timescale=1164413355 Duration=1737075661 Rate=-291.2711 Volume=291 Matrix=[0x0, 0x0, 0x0, 0x0, 0x0, 0x0, 0x0, 0x0, 0x0] PreDefined=[0, 0, 0, 0, 0, 0] NextTrackID=2882400001");
  (* mvhd: version 1 *) (K_mvhd, lit "mvhd", [1; 0; 0; 0; 1; 35; 69; 103; 137; 171; 205; 239; 35; 69; 103; 137; 171; 205; 239; 1; 137; 171; 205; 239; 69; 103; 137; 171; 205; 239; 1; 35; 254; 220; 186; 153; 1; 35; 0; 0; 0; 0; 0; 0; 0; 0; 0; 0; 0; 0; 0; 0; 0; 0; 0; 0; 0; 0; 0; 0; 0; 0; 0; 0; 0; 0; 0; 0; 0; 0; 0; 0; 0; 0; 0; 0; 0; 0; 0; 0; 0; 0; 0; 0; 0; 0; 0; 0; 0; 0; 0; 0; 0; 0; 0; 0; 0; 0; 0; 0; 0; 0; 0; 0; 0; 0; 0; 0; 171; 205; 239; 1],
     lit "Version=1 Flags=0x000000 CreationTime=""0000-00-00T00:00:00Z"" ModificationTime=""0000-00-00T00:00:00Z"" Timescale=2309737967 Duration=5001117282205630755 Rate=-291.2711 Volume=291 Matrix=[0x0, 0x0, 0x0, 0x0, 0x0, 0x0, 0x0, 0x0, 0x0] PreDefined=[0, 0, 0, 0, 0, 0] NextTrackID=2882400001");
  (* pssh: version 0: no KIDs *) (K_pssh, lit "pssh", [0; 0; 0; 0; 1; 2; 3; 4; 5; 6; 7; 8; 9; 10; 11; 12; 13; 14; 15; 16; 0; 0; 0; 5; 33; 34; 35; 36; 37],
     lit "Version=0 Flags=0x000000 SystemID=""0102030405060708090a0b0c0d0e0f10"" DataSize=5 Data=[0x21, 0x22, 0x23, 0x24, 0x25]");
  (* pssh: version 1: with KIDs *) (K_pssh, lit "pssh", [1; 0; 0; 0; 1; 2; 3; 4; 5; 6; 7; 8; 9; 10; 11; 12; 13; 14; 15; 16; 0; 0; 0; 2; 17; 18; 19; 20; 21; 22; 23; 24; 25; 26; 27; 28; 29; 30; 31; 16; 33; 34; 35; 36; 37; 38; 39; 40; 41; 42; 43; 44; 45; 46; 47; 32; 0; 0; 0; 5; 33; 34; 35; 36; 37],
     lit "Version=1 Flags=0x000000 SystemID=""0102030405060708090a0b0c0d0e0f10"" KIDCount=2 KIDs=[""1112131415161718191a1b1c1d1e1f10"" ""2122232425262728292a2b2c2d2e2f20""] DataSize=5 Data=[0x21, 0x22, 0x23, 0x24, 0x25]");
  (* VisualSampleEntry *) (K_visual, lit "avc1", [0; 0; 0; 0; 0; 0; 18; 52; 1; 1; 0; 0; 1; 0; 0; 1; 1; 0; 0; 2; 1; 0; 0; 3; 1; 2; 1; 3; 1; 0; 0; 4; 1; 0; 0; 5; 0; 0; 0; 0; 1; 4; 9; 115; 104; 105; 103; 117; 114; 101; 100; 111; 0; 0; 0; 0; 0; 0; 0; 0; 0; 0; 0; 0; 0; 0; 0; 0; 0; 0; 0; 0; 0; 0; 1; 5; 3; 233],
     lit "DataReferenceIndex=4660 PreDefined=257 PreDefined2=[16777217, 16777218, 16777219] Width=258 Height=259 Horizresolution=16777220 Vertresolution=16777221 FrameCount=260 Compressorname=""shiguredo"" Depth=261 PreDefined3=1001");
  (* AudioSampleEntry *) (K_audio, lit "enca", [0; 0; 0; 0; 0; 0; 18; 52; 1; 35; 0; 0; 0; 0; 0; 0; 35; 69; 69; 103; 103; 137; 0; 0; 1; 35; 69; 103],
     lit "DataReferenceIndex=4660 EntryVersion=291 ChannelCount=9029 SampleSize=17767 PreDefined=26505 SampleRate=19088743");
  (* AudioSampleEntry (QuickTime v1) *) (K_audio, lit "mp4a", [0; 0; 0; 0; 0; 0; 18; 52; 0; 1; 0; 0; 0; 0; 0; 0; 35; 69; 69; 103; 103; 137; 0; 0; 1; 35; 69; 103; 0; 17; 34; 51; 68; 85; 102; 119; 136; 153; 170; 187; 204; 221; 238; 255],
     lit "DataReferenceIndex=4660 EntryVersion=1 ChannelCount=9029 SampleSize=17767 PreDefined=26505 SampleRate=19088743 QuickTimeData=[0x0, 0x11, 0x22, 0x33, 0x44, 0x55, 0x66, 0x77, 0x88, 0x99, 0xaa, 0xbb, 0xcc, 0xdd, 0xee, 0xff]");
  (* AudioSampleEntry (QuickTime v2) *) (K_audio, lit "mp4a", [0; 0; 0; 0; 0; 0; 18; 52; 0; 2; 0; 0; 0; 0; 0; 0; 35; 69; 69; 103; 103; 137; 0; 0; 1; 35; 69; 103; 0; 17; 34; 51; 68; 85; 102; 119; 136; 153; 170; 187; 204; 221; 238; 255; 0; 17; 34; 51; 68; 85; 102; 119; 136; 153; 170; 187; 204; 221; 238; 255; 0; 17; 34; 51],
     lit "DataReferenceIndex=4660 EntryVersion=2 ChannelCount=9029 SampleSize=17767 PreDefined=26505 SampleRate=19088743 QuickTimeData=[0x0, 0x11, 0x22, 0x33, 0x44, 0x55, 0x66, 0x77, 0x88, 0x99, 0xaa, 0xbb, 0xcc, 0xdd, 0xee, 0xff, 0x0, 0x11, 0x22, 0x33, 0x44, 0x55, 0x66, 0x77, 0x88, 0x99, 0xaa, 0xbb, 0xcc, 0xdd, 0xee, 0xff, 0x0, 0x11, 0x22, 0x33]");
  (* AVCDecoderConfiguration main profile *) (K_avcC, lit "avcC", [18; 77; 64; 31; 254; 226; 0; 2; 18; 52; 0; 3; 18; 52; 86; 2; 0; 2; 171; 205; 0; 3; 171; 205; 239],
     lit "ConfigurationVersion=0x12 Profile=0x4d ProfileCompatibility=0x40 Level=0x1f LengthSizeMinusOne=0x2 NumOfSequenceParameterSets=0x2 SequenceParameterSets=[{Length=2 NALUnit=[0x12, 0x34]}, {Length=3 NALUnit=[0x12, 0x34, 0x56]}] NumOfPictureParameterSets=0x2 PictureParameterSets=[{Length=2 NALUnit=[0xab, 0xcd]}, {Length=3 NALUnit=[0xab, 0xcd, 0xef]}]");
  (* AVCDecoderConfiguration high profile old spec *) (K_avcC, lit "avcC", [18; 100; 0; 40; 254; 226; 0; 2; 18; 52; 0; 3; 18; 52; 86; 2; 0; 2; 171; 205; 0; 3; 171; 205; 239],
     lit "ConfigurationVersion=0x12 Profile=0x64 ProfileCompatibility=0x0 Level=0x28 LengthSizeMinusOne=0x2 NumOfSequenceParameterSets=0x2 SequenceParameterSets=[{Length=2 NALUnit=[0x12, 0x34]}, {Length=3 NALUnit=[0x12, 0x34, 0x56]}] NumOfPictureParameterSets=0x2 PictureParameterSets=[{Length=2 NALUnit=[0xab, 0xcd]}, {Length=3 NALUnit=[0xab, 0xcd, 0xef]}]");
  (* AVCDecoderConfiguration high profile new spec *) (K_avcC, lit "avcC", [18; 100; 0; 40; 254; 226; 0; 2; 18; 52; 0; 3; 18; 52; 86; 2; 0; 2; 171; 205; 0; 3; 171; 205; 239; 253; 250; 251; 2; 0; 2; 18; 52; 0; 3; 18; 52; 86],
     lit "ConfigurationVersion=0x12 Profile=0x64 ProfileCompatibility=0x0 Level=0x28 LengthSizeMinusOne=0x2 NumOfSequenceParameterSets=0x2 SequenceParameterSets=[{Length=2 NALUnit=[0x12, 0x34]}, {Length=3 NALUnit=[0x12, 0x34, 0x56]}] NumOfPictureParameterSets=0x2 PictureParameterSets=[{Length=2 NALUnit=[0xab, 0xcd]}, {Length=3 NALUnit=[0xab, 0xcd, 0xef]}] ChromaFormat=0x1 BitDepthLumaMinus8=0x2 BitDepthChromaMinus8=0x3 NumOfSequenceParameterSetExt=0x2 SequenceParameterSetsExt=[{Length=2 NALUnit=[0x12, 0x34]}, {Length=3 NALUnit=[0x12, 0x34, 0x56]}]");
  (* PixelAspectRatio *) (K_pasp, lit "pasp", [1; 35; 69; 103; 35; 69; 103; 137],
     lit "HSpacing=19088743 VSpacing=591751049");
  (* sbgp: version 0 *) (K_sbgp, lit "sbgp", [0; 0; 0; 0; 114; 111; 108; 108; 0; 0; 0; 2; 35; 69; 103; 137; 52; 86; 120; 154; 69; 103; 137; 171; 86; 120; 154; 188],
     lit "Version=0 Flags=0x000000 GroupingType=""roll"" EntryCount=2 Entries=[{SampleCount=591751049 GroupDescriptionIndex=878082202}, {SampleCount=1164413355 GroupDescriptionIndex=1450744508}]");
  (* sbgp: version 1 *) (K_sbgp, lit "sbgp", [1; 0; 0; 0; 112; 114; 111; 108; 137; 171; 205; 239; 0; 0; 0; 2; 35; 69; 103; 137; 52; 86; 120; 154; 69; 103; 137; 171; 86; 120; 154; 188],
     lit "Version=1 Flags=0x000000 GroupingType=""prol"" GroupingTypeParameter=2309737967 EntryCount=2 Entries=[{SampleCount=591751049 GroupDescriptionIndex=878082202}, {SampleCount=1164413355 GroupDescriptionIndex=1450744508}]");
  (* schi *) (K_container, lit "schi", [],
     lit "");
  (* sgpd: version 1 roll *) (K_sgpd, lit "sgpd", [1; 0; 0; 0; 114; 111; 108; 108; 0; 0; 0; 2; 0; 0; 0; 2; 17; 17; 34; 34],
     lit "Version=1 Flags=0x000000 GroupingType=""roll"" DefaultLength=2 EntryCount=2 RollDistances=[4369, 8738]");
  (* sgpd: version 1 prol *) (K_sgpd, lit "sgpd", [1; 0; 0; 0; 112; 114; 111; 108; 0; 0; 0; 2; 0; 0; 0; 2; 17; 17; 34; 34],
     lit "Version=1 Flags=0x000000 GroupingType=""prol"" DefaultLength=2 EntryCount=2 RollDistances=[4369, 8738]");
  (* sgpd: version 1 alst no-opts *) (K_sgpd, lit "sgpd", [1; 0; 0; 0; 97; 108; 115; 116; 0; 0; 0; 12; 0; 0; 0; 2; 0; 2; 1; 35; 1; 35; 69; 103; 137; 171; 205; 239; 0; 2; 69; 103; 69; 103; 137; 171; 205; 239; 1; 35],
     lit "Version=1 Flags=0x000000 GroupingType=""alst"" DefaultLength=12 EntryCount=2 AlternativeStartupEntries=[{RollCount=2 FirstOutputSample=291 SampleOffset=[19088743, 2309737967] Opts=[]}, {RollCount=2 FirstOutputSample=17767 SampleOffset=[1164413355, 3454992675] Opts=[]}]");
  (* sgpd: version 1 alst default-length *) (K_sgpd, lit "sgpd", [1; 0; 0; 0; 97; 108; 115; 116; 0; 0; 0; 20; 0; 0; 0; 2; 0; 2; 1; 35; 1; 35; 69; 103; 137; 171; 205; 239; 1; 35; 69; 103; 137; 171; 205; 239; 0; 2; 69; 103; 69; 103; 137; 171; 205; 239; 1; 35; 1; 35; 69; 103; 137; 171; 205; 239],
     lit "Version=1 Flags=0x000000 GroupingType=""alst"" DefaultLength=20 EntryCount=2 AlternativeStartupEntries=[{RollCount=2 FirstOutputSample=291 SampleOffset=[19088743, 2309737967] Opts=[{NumOutputSamples=291 NumTotalSamples=17767}, {NumOutputSamples=35243 NumTotalSamples=52719}]}, {RollCount=2 FirstOutputSample=17767 SampleOffset=[1164413355, 3454992675] Opts=[{NumOutputSamples=291 NumTotalSamples=17767}, {NumOutputSamples=35243 NumTotalSamples=52719}]}]");
  (* sgpd: version 1 alst no-default-length *) (K_sgpd, lit "sgpd", [1; 0; 0; 0; 97; 108; 115; 116; 0; 0; 0; 0; 0; 0; 0; 2; 0; 0; 0; 16; 0; 2; 1; 35; 1; 35; 69; 103; 137; 171; 205; 239; 1; 35; 69; 103; 0; 0; 0; 20; 0; 2; 69; 103; 69; 103; 137; 171; 205; 239; 1; 35; 1; 35; 69; 103; 137; 171; 205; 239],
     lit "Version=1 Flags=0x000000 GroupingType=""alst"" DefaultLength=0 EntryCount=2 AlternativeStartupEntriesL=[{DescriptionLength=16 RollCount=2 FirstOutputSample=291 SampleOffset=[19088743, 2309737967] Opts=[{NumOutputSamples=291 NumTotalSamples=17767}]}, {DescriptionLength=20 RollCount=2 FirstOutputSample=17767 SampleOffset=[1164413355, 3454992675] Opts=[{NumOutputSamples=291 NumTotalSamples=17767}, {NumOutputSamples=35243 NumTotalSamples=52719}]}]");
  (* sgpd: version 1 rap *) (K_sgpd, lit "sgpd", [1; 0; 0; 0; 114; 97; 112; 32; 0; 0; 0; 1; 0; 0; 0; 2; 167; 26],
     lit "Version=1 Flags=0x000000 GroupingType=""rap "" DefaultLength=1 EntryCount=2 VisualRandomAccessEntries=[{NumLeadingSamplesKnown=true NumLeadingSamples=0x27}, {NumLeadingSamplesKnown=false NumLeadingSamples=0x1a}]");
  (* sgpd: version 1 tele *) (K_sgpd, lit "sgpd", [1; 0; 0; 0; 116; 101; 108; 101; 0; 0; 0; 1; 0; 0; 0; 2; 128; 0],
     lit "Version=1 Flags=0x000000 GroupingType=""tele"" DefaultLength=1 EntryCount=2 TemporalLevelEntries=[{LevelIndependentlyRecodable=true}, {LevelIndependentlyRecodable=false}]");
  (* sgpd: version 2 roll *) (K_sgpd, lit "sgpd", [2; 0; 0; 0; 114; 111; 108; 108; 0; 0; 0; 5; 0; 0; 0; 2; 17; 17; 34; 34],
     lit "Version=2 Flags=0x000000 GroupingType=""roll"" DefaultSampleDescriptionIndex=5 EntryCount=2 RollDistances=[4369, 8738]");
  (* sidx: version=0 *) (K_sidx, lit "sidx", [0; 0; 0; 0; 1; 35; 69; 103; 35; 69; 103; 137; 69; 103; 137; 171; 103; 137; 171; 205; 0; 0; 0; 2; 1; 35; 69; 103; 35; 69; 103; 137; 233; 171; 205; 239; 129; 35; 69; 103; 35; 69; 103; 137; 89; 171; 205; 239],
     lit "Version=0 Flags=0x000000 ReferenceID=19088743 Timescale=591751049 EarliestPresentationTime=1164413355 FirstOffset=1737075661 ReferenceCount=2 References=[{ReferenceType=false ReferencedSize=19088743 SubsegmentDuration=591751049 StartsWithSAP=true SAPType=6 SAPDeltaTime=162254319}, {ReferenceType=true ReferencedSize=19088743 SubsegmentDuration=591751049 StartsWithSAP=false SAPType=5 SAPDeltaTime=162254319}]");
  (* sidx: version=1 *) (K_sidx, lit "sidx", [1; 0; 0; 0; 1; 35; 69; 103; 35; 69; 103; 137; 1; 35; 69; 103; 137; 171; 205; 239; 35; 69; 103; 137; 171; 205; 239; 1; 0; 0; 0; 2; 1; 35; 69; 103; 35; 69; 103; 137; 233; 171; 205; 239; 129; 35; 69; 103; 35; 69; 103; 137; 89; 171; 205; 239],
     lit "Version=1 Flags=0x000000 ReferenceID=19088743 Timescale=591751049 EarliestPresentationTime=81985529216486895 FirstOffset=2541551405711093505 ReferenceCount=2 References=[{ReferenceType=false ReferencedSize=19088743 SubsegmentDuration=591751049 StartsWithSAP=true SAPType=6 SAPDeltaTime=162254319}, {ReferenceType=true ReferencedSize=19088743 SubsegmentDuration=591751049 StartsWithSAP=false SAPType=5 SAPDeltaTime=162254319}]");
  (* sinf *) (K_container, lit "sinf", [],
     lit "");
  (* smhd *) (K_smhd, lit "smhd", [0; 0; 0; 0; 1; 35; 0; 0],
     lit "Version=0 Flags=0x000000 Balance=1.14");
  (* stbl *) (K_container, lit "stbl", [],
     lit "");
  (* stco *) (K_stco, lit "stco", [0; 0; 0; 0; 0; 0; 0; 2; 1; 35; 69; 103; 137; 171; 205; 239],
     lit "Version=0 Flags=0x000000 EntryCount=2 ChunkOffsets=[0x1234567, 0x89abcdef]");
  (* stsc *) (K_stsc, lit "stsc", [0; 0; 0; 0; 0; 0; 0; 2; 1; 35; 69; 103; 35; 69; 103; 137; 69; 103; 137; 171; 103; 137; 171; 205; 137; 171; 205; 239; 171; 205; 239; 1],
     lit "Version=0 Flags=0x000000 EntryCount=2 Entries=[{FirstChunk=19088743 SamplesPerChunk=591751049 SampleDescriptionIndex=1164413355}, {FirstChunk=1737075661 SamplesPerChunk=2309737967 SampleDescriptionIndex=2882400001}]");
  (* stsd *) (K_stsd, lit "stsd", [0; 0; 0; 0; 1; 35; 69; 103],
     lit "Version=0 Flags=0x000000 EntryCount=19088743");
  (* stss *) (K_stss, lit "stss", [0; 0; 0; 0; 0; 0; 0; 2; 1; 35; 69; 103; 137; 171; 205; 239],
     lit "Version=0 Flags=0x000000 EntryCount=2 SampleNumbers=[19088743, 2309737967]");
  (* stsz: common sample size *) (K_stsz, lit "stsz", [0; 0; 0; 0; 1; 35; 69; 103; 0; 0; 0; 0],
     lit "Version=0 Flags=0x000000 SampleSize=19088743 SampleCount=0 EntrySizes=[]");
  (* stsz: sample size array *) (K_stsz, lit "stsz", [0; 0; 0; 0; 0; 0; 0; 0; 0; 0; 0; 2; 1; 35; 69; 103; 35; 69; 103; 137],
     lit "Version=0 Flags=0x000000 SampleSize=0 SampleCount=2 EntrySizes=[19088743, 591751049]");
  (* stts *) (K_stts, lit "stts", [0; 0; 0; 0; 0; 0; 0; 2; 1; 35; 69; 103; 35; 69; 103; 137; 69; 103; 137; 171; 103; 137; 171; 205],
     lit "Version=0 Flags=0x000000 EntryCount=2 Entries=[{SampleCount=19088743 SampleDuration=591751049}, {SampleCount=1164413355 SampleDuration=1737075661}]");
  (* styp *) (K_ftyp, lit "styp", [97; 98; 101; 109; 18; 52; 86; 120; 97; 98; 99; 100; 101; 102; 103; 104],
     lit "MajorBrand=""abem"" MinorVersion=305419896 CompatibleBrands=[{CompatibleBrand=""abcd""}, {CompatibleBrand=""efgh""}]");
  (* tfdt: version 0 *) (K_tfdt, lit "tfdt", [0; 0; 0; 0; 1; 35; 69; 103],
     lit "Version=0 Flags=0x000000 BaseMediaDecodeTime=19088743");
  (* tfdt: version 1 *) (K_tfdt, lit "tfdt", [1; 0; 0; 0; 1; 35; 69; 103; 137; 171; 205; 239],
     lit "Version=1 Flags=0x000000 BaseMediaDecodeTime=81985529216486895");
  (* tfhd: no flags *) (K_tfhd, lit "tfhd", [0; 0; 0; 0; 8; 64; 70; 73],
     lit "Version=0 Flags=0x000000 TrackID=138430025");
  (* tfhd: base data offset & default sample duration *) (K_tfhd, lit "tfhd", [0; 0; 0; 9; 8; 64; 70; 73; 1; 35; 69; 103; 137; 171; 205; 239; 35; 69; 103; 137],
     lit "Version=0 Flags=0x000009 TrackID=138430025 BaseDataOffset=81985529216486895 DefaultSampleDuration=591751049");
  (* tfra: version 0 *) (K_tfra, lit "tfra", [0; 0; 0; 0; 17; 17; 17; 17; 0; 0; 0; 27; 0; 0; 0; 2; 34; 34; 34; 34; 51; 51; 51; 51; 68; 68; 85; 85; 85; 102; 102; 102; 102; 119; 119; 119; 119; 136; 136; 136; 136; 153; 153; 170; 170; 170; 187; 187; 187; 187],
     lit "Version=0 Flags=0x000000 TrackID=286331153 LengthSizeOfTrafNum=0x1 LengthSizeOfTrunNum=0x2 LengthSizeOfSampleNum=0x3 NumberOfEntry=2 Entries=[{Time=572662306 MoofOffset=858993459 TrafNumber=17476 TrunNumber=5592405 SampleNumber=1717986918}, {Time=2004318071 MoofOffset=2290649224 TrafNumber=39321 TrunNumber=11184810 SampleNumber=3149642683}]");
  (* tfra: version 1 *) (K_tfra, lit "tfra", [1; 0; 0; 0; 17; 17; 17; 17; 0; 0; 0; 27; 0; 0; 0; 2; 34; 34; 34; 34; 34; 34; 34; 34; 51; 51; 51; 51; 51; 51; 51; 51; 68; 68; 85; 85; 85; 102; 102; 102; 102; 119; 119; 119; 119; 119; 119; 119; 119; 136; 136; 136; 136; 136; 136; 136; 136; 153; 153; 170; 170; 170; 187; 187; 187; 187],
     lit "Version=1 Flags=0x000000 TrackID=286331153 LengthSizeOfTrafNum=0x1 LengthSizeOfTrunNum=0x2 LengthSizeOfSampleNum=0x3 NumberOfEntry=2 Entries=[{Time=2459565876494606882 MoofOffset=3689348814741910323 TrafNumber=17476 TrunNumber=5592405 SampleNumber=1717986918}, {Time=8608480567731124087 MoofOffset=9838263505978427528 TrafNumber=39321 TrunNumber=11184810 SampleNumber=3149642683}]");
  (* tkhd: version 0 *) (K_tkhd, lit "tkhd", [0; 0; 0; 0; 1; 35; 69; 103; 18; 52; 86; 120; 35; 69; 103; 137; 0; 0; 0; 0; 69; 103; 137; 171; 0; 0; 0; 0; 0; 0; 0; 0; 91; 160; 164; 96; 1; 0; 0; 0; 0; 1; 0; 0; 0; 0; 0; 0; 0; 0; 0; 0; 0; 0; 0; 0; 0; 1; 0; 0; 0; 0; 0; 0; 0; 0; 0; 0; 0; 0; 0; 0; 64; 0; 0; 0; 7; 128; 0; 0; 4; 56; 0; 0],
     lit "Version=0 Flags=0x000000 CreationTime=""1904-08-08T22:25:43Z"" ModificationTime=""1913-09-04T22:51:36Z"" TrackID=591751049 Duration=1164413355 Layer=23456 AlternateGroup=-23456 Volume=256 Matrix=[0x10000, 0x0, 0x0, 0x0, 0x10000, 0x0, 0x0, 0x0, 0x40000000] Width=1920.0000 Height=1080.0000");
  (* tkhd: version 1 *) (K_tkhd, lit "tkhd", [1; 0; 0; 0; 0; 0; 0; 0; 1; 35; 69; 103; 0; 0; 0; 0; 18; 52; 86; 120; 35; 69; 103; 137; 0; 0; 0; 0; 0; 0; 0; 0; 69; 103; 137; 171; 0; 0; 0; 0; 0; 0; 0; 0; 91; 160; 164; 96; 1; 0; 0; 0; 0; 1; 0; 0; 0; 0; 0; 0; 0; 0; 0; 0; 0; 0; 0; 0; 0; 1; 0; 0; 0; 0; 0; 0; 0; 0; 0; 0; 0; 0; 0; 0; 64; 0; 0; 0; 7; 128; 0; 0; 4; 56; 0; 0],
     lit "Version=1 Flags=0x000000 CreationTime=""1904-08-08T22:25:43Z"" ModificationTime=""1913-09-04T22:51:36Z"" TrackID=591751049 Duration=1164413355 Layer=23456 AlternateGroup=-23456 Volume=256 Matrix=[0x10000, 0x0, 0x0, 0x0, 0x10000, 0x0, 0x0, 0x0, 0x40000000] Width=1920.0000 Height=1080.0000");
  (* traf *) (K_container, lit "traf", [],
     lit "");
  (* trak *) (K_container, lit "trak", [],
     lit "");
  (* trex *) (K_trex, lit "trex", [0; 0; 0; 0; 1; 35; 69; 103; 35; 69; 103; 137; 69; 103; 137; 171; 103; 137; 171; 205; 137; 171; 205; 239],
     lit "Version=0 Flags=0x000000 TrackID=19088743 DefaultSampleDescriptionIndex=591751049 DefaultSampleDuration=1164413355 DefaultSampleSize=1737075661 DefaultSampleFlags=0x89abcdef");
  (* trun: version=0 flag=0x101 *) (K_trun, lit "trun", [0; 0; 1; 1; 0; 0; 0; 3; 0; 0; 0; 50; 0; 0; 0; 100; 0; 0; 0; 101; 0; 0; 0; 102],
     lit "Version=0 Flags=0x000101 SampleCount=3 DataOffset=50 Entries=[{SampleDuration=100}, {SampleDuration=101}, {SampleDuration=102}]");
  (* trun: version=0 flag=0x204 *) (K_trun, lit "trun", [0; 0; 2; 4; 0; 0; 0; 3; 2; 70; 138; 206; 0; 0; 0; 100; 0; 0; 0; 101; 0; 0; 0; 102],
     lit "Version=0 Flags=0x000204 SampleCount=3 FirstSampleFlags=0x2468ace Entries=[{SampleSize=100}, {SampleSize=101}, {SampleSize=102}]");
  (* trun: version=0 flag=0xc00 *) (K_trun, lit "trun", [0; 0; 12; 0; 0; 0; 0; 3; 0; 0; 0; 100; 0; 0; 0; 200; 0; 0; 0; 101; 0; 0; 0; 201; 0; 0; 0; 102; 0; 0; 0; 202],
     lit "Version=0 Flags=0x000c00 SampleCount=3 Entries=[{SampleFlags=0x64 SampleCompositionTimeOffset=200}, {SampleFlags=0x65 SampleCompositionTimeOffset=201}, {SampleFlags=0x66 SampleCompositionTimeOffset=202}]");
  (* trun: version=1 flag=0x800 *) (K_trun, lit "trun", [1; 0; 8; 0; 0; 0; 0; 3; 0; 0; 0; 200; 0; 0; 0; 201; 255; 255; 255; 54],
     lit "Version=1 Flags=0x000800 SampleCount=3 Entries=[{SampleCompositionTimeOffset=200}, {SampleCompositionTimeOffset=201}, {SampleCompositionTimeOffset=-202}]");
  (* udta *) (K_container, lit "udta", [],
     lit "");
  (* vmhd *) (K_vmhd, lit "vmhd", [0; 0; 0; 0; 1; 35; 35; 69; 69; 103; 103; 137],
     lit "Version=0 Flags=0x000000 Graphicsmode=291 Opcolor=[9029, 17767, 26505]");
  (* dOps *) (K_dOps, lit "dOps", [0; 2; 1; 56; 0; 0; 187; 128; 0; 0; 0],
     lit "Version=0 OutputChannelCount=2 PreSkip=312 InputSampleRate=48000 OutputGain=0 ChannelMappingFamily=0");
  (* btrt *) (K_btrt, lit "btrt", [0; 0; 2; 74; 0; 1; 233; 32; 0; 1; 194; 136],
     lit "DecodingBufferSize=586 MaxBitrate=125216 AvgBitrate=115336");
  (* iods *) (K_iods, lit "iods", [0; 0; 0; 0; 16; 128; 128; 128; 7; 0; 79; 255; 255; 254; 255; 255],
     lit "Version=0 Flags=0x000000 TypeTag=0x10 ODID=79 ODProfileLevel=0xff SceneProfileLevel=0xff AudioProfileLevel=0xfe VideoProfileLevel=0xff GraphicsProfileLevel=0xff");
  (* vpcC *) (K_vpcC, lit "vpcC", [1; 0; 0; 0; 0; 0; 128; 255; 255; 0; 0; 0],
     lit "Version=1 Flags=0x000000 Profile=0 Level=0 BitDepth=8 ChromaSubSampling=0 VideoFullRangeFlag=0 ColourPrimaries=255 TransferCharacteristics=255 MatrixCoefficients=0 CodecInitializationData=[]");
  (* vpcC version: 0 *) (K_vpcC, lit "vpcC", [0; 0; 0; 0; 0; 0; 128; 255; 255; 0],
     lit "Version=0 Flags=0x000000 Profile=0 Level=0 BitDepth=8 ChromaSubSampling=0 VideoFullRangeFlag=0 ColourPrimaries=255 TransferCharacteristics=255 MatrixCoefficients=0 CodecInitializationData=[]");
  (* sdtp *) (K_sdtp, lit "sdtp", [0; 0; 0; 0; 0; 27; 228],
     lit "Version=0 Flags=0x000000 Samples=[{IsLeading=0x0 SampleDependsOn=0x0 SampleIsDependedOn=0x0 SampleHasRedundancy=0x0}, {IsLeading=0x0 SampleDependsOn=0x1 SampleIsDependedOn=0x2 SampleHasRedundancy=0x3}, {IsLeading=0x3 SampleDependsOn=0x2 SampleIsDependedOn=0x1 SampleHasRedundancy=0x0}]");
  (* ilst meta *) (K_container, lit "----", [],
     lit "");
  (* ilst data (binary) *) (K_data, lit "data", [0; 0; 0; 0; 18; 52; 86; 120; 102; 111; 111],
     lit "DataType=BINARY DataLang=305419896 Data=[0x66, 0x6f, 0x6f]");
  (* ilst data (utf8) *) (K_data, lit "data", [0; 0; 0; 1; 18; 52; 86; 120; 102; 111; 111],
     lit "DataType=UTF8 DataLang=305419896 Data=""foo""");
  (* ilst data (utf8 escaped) *) (K_data, lit "data", [0; 0; 0; 1; 18; 52; 86; 120; 0; 102; 111; 111],
     lit "DataType=UTF8 DataLang=305419896 Data="".foo""");
  (* ilst data (utf16) *) (K_data, lit "data", [0; 0; 0; 2; 18; 52; 86; 120; 102; 111; 111],
     lit "DataType=UTF16 DataLang=305419896 Data=[0x66, 0x6f, 0x6f]");
  (* ilst data (utf16) *) (K_data, lit "data", [0; 0; 0; 3; 18; 52; 86; 120; 102; 111; 111],
     lit "DataType=MAC_STR DataLang=305419896 Data=[0x66, 0x6f, 0x6f]");
  (* ilst data (jpsg) *) (K_data, lit "data", [0; 0; 0; 14; 18; 52; 86; 120; 102; 111; 111],
     lit "DataType=JPEG DataLang=305419896 Data=[0x66, 0x6f, 0x6f]");
  (* ilst data (int) *) (K_data, lit "data", [0; 0; 0; 21; 18; 52; 86; 120; 102; 111; 111],
     lit "DataType=INT DataLang=305419896 Data=[0x66, 0x6f, 0x6f]");
  (* ilst data (float32) *) (K_data, lit "data", [0; 0; 0; 22; 18; 52; 86; 120; 102; 111; 111],
     lit "DataType=FLOAT32 DataLang=305419896 Data=[0x66, 0x6f, 0x6f]");
  (* ilst data (float64) *) (K_data, lit "data", [0; 0; 0; 23; 18; 52; 86; 120; 102; 111; 111],
     lit "DataType=FLOAT64 DataLang=305419896 Data=[0x66, 0x6f, 0x6f]");
  (* av1C *) (K_av1C, lit "av1C", [129; 0; 0; 0; 10; 11; 0; 0; 0; 4; 71; 126; 26; 255; 252; 192; 32],
     lit "Marker=1 Version=1 SeqProfile=0 SeqLevelIdx0=0 SeqTier0=0 HighBitdepth=false TwelveBit=false Monochrome=false ChromaSubsamplingX=0 ChromaSubsamplingY=0 ChromaSamplePosition=0 InitialPresentationDelayPresent=false ConfigOBUs=[0xa, 0xb, 0x0, 0x0, 0x0, 0x4, 0x47, 0x7e, 0x1a, 0xff, 0xfc, 0xc0, 0x20]")
  ].

(** test/box_types.cpp:2165-2208 for one entry: read the payload; all its bits are consumed; written back it gives the same
    octets and bit count; the size and the text are the expected ones; the registry makes an object of that class. *)
Definition read_ok (k : kind) (t bin text : list Z) : bool :=
  match Box_readData k t false (reader_init bin) with
  | Ok (_, rbits, b) =>
      (rbits =? 8 * Zlen bin) && (Box_getDataSize b =? Zlen bin) &&
      match Box_toStringOnlyData b with Ok s => list_eqb s text | _ => false end
  | _ => false
  end.
Definition vector_ok (v : kind * list Z * list Z * list Z) : bool :=
  let '(k, t, bin, text) := v in
  read_ok k t bin text && read_ok (BoxMap_getBoxInstance BoxMap_registered t) t bin text &&
  match Box_readData k t false (reader_init bin) with
  | Ok (_, _, b) =>
      match Box_writeData b writer_init with
      | Ok (w, wbits) => (wbits =? 8 * Zlen bin) && list_eqb (w_os w) bin
      | _ => false
      end
  | _ => false
  end.
Definition failing (l : list (kind * list Z * list Z * list Z)) : list (list Z) := map (fun v => snd v) (filter (fun v => negb (vector_ok v)) l).

Example project_test_vectors : List.length box_test_cases = 106%nat /\ failing box_test_cases = [].
Proof. split; vm_compute; reflexivity. Qed.
