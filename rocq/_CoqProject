-Q theories Verif
theories/Model/Base.v
theories/Model/Helpers.v
theories/Model/Stream.v
theories/Model/Bitmap.v
theories/Spec/Bits.v
theories/Proofs/BaseLemmas.v
theories/Proofs/HelpersP.v
theories/Proofs/BitsP.v
theories/Proofs/StreamP.v
theories/Spec/BitmapS.v
theories/Proofs/BitmapP.v
theories/Proofs/Bits2.v
theories/Proofs/BitmapX.v
theories/Props/P01_Bits.v
theories/Model/Errors.v
theories/Model/F32.v
theories/Model/Diff.v
theories/Model/Complex.v
theories/Model/RunLength.v
theories/Model/Simple.v
theories/Spec/ComplexS.v
theories/Proofs/DiffP.v
theories/Proofs/Fields.v
theories/Proofs/ComplexP.v
theories/Props/P02_Complex.v
theories/Spec/RunLengthS.v
theories/Proofs/RunLengthP.v
theories/Proofs/RunLengthX.v
theories/Props/P03_RunLength.v
theories/Spec/FloatS.v
theories/Proofs/FloatP.v
theories/Spec/SimpleS.v
theories/Proofs/SimpleP.v
theories/Proofs/AccuracyP.v
theories/Props/P04_Simple.v
theories/Model/Sections.v
theories/Model/Reader.v
theories/Model/Parser.v
theories/Model/Context.v
theories/Model/F64.v
theories/Model/Grid.v
theories/Model/Gaussian.v
theories/Model/Proj.v
theories/Spec/ReaderS.v
theories/Spec/ParserS.v
theories/Spec/ReadS.v
theories/Spec/Layout.v
theories/Proofs/ReaderP.v
theories/Proofs/SectionStreamP.v
theories/Proofs/ExactP.v
theories/Proofs/ParserP.v
theories/Proofs/ParserRun.v
theories/Proofs/ParserShape.v
theories/Proofs/ParserSim.v
theories/Proofs/ParserSrc.v
theories/Proofs/ParserStop.v
theories/Proofs/Progress.v
theories/Proofs/ContextP.v
theories/Proofs/FileP.v
theories/Proofs/TableP.v
theories/Proofs/LayoutP.v
theories/Proofs/FileP2.v
theories/Proofs/ReaderX.v
theories/Proofs/ReadX.v
theories/Props/P05_Reader.v
theories/Proofs/ParserX.v
theories/Props/P06_Parser.v
theories/Spec/ContextS.v
theories/Proofs/ContextX.v
theories/Proofs/BoundX.v
theories/Props/P07_Context.v
theories/Spec/FieldsS.v
theories/Spec/GridS.v
theories/Proofs/GridP.v
theories/Model/Product.v
theories/Proofs/FieldsP.v
theories/Proofs/FieldsX.v
theories/Spec/ProductS.v
theories/Proofs/ProductX.v
theories/Proofs/FloatP64.v
theories/Proofs/SurfaceX.v
theories/Proofs/CalendarP.v
theories/Proofs/ViewX.v
theories/Spec/LegendreS.v
theories/Proofs/LegendreX.v
theories/Proofs/CodecX.v
theories/Proofs/ShapeX.v
theories/Proofs/PiP.v
theories/Proofs/DegreesX.v
theories/Props/P08_Fields.v
theories/Proofs/PointsP.v
theories/Proofs/SpacingP.v
theories/Spec/CoordsS.v
theories/Proofs/LatlonX.v
theories/Spec/GaussS.v
theories/Proofs/GaussP.v
theories/Spec/ProjS.v
theories/Proofs/GridX.v
theories/Proofs/ProjX.v
theories/Props/P09_Grid.v
theories/Model/Decoder.v
theories/Spec/DecodeS.v
theories/Proofs/DecodeP.v
theories/Proofs/DecodeX.v
theories/Proofs/KeepP.v
theories/Proofs/WholeX.v
theories/Spec/RefuseS.v
theories/Proofs/RefuseX.v
theories/Proofs/PanicX.v
theories/Proofs/RefuseF.v
theories/Spec/GroupsS.v
theories/Proofs/GroupsP.v
theories/Proofs/GroupsX.v
theories/Props/P10_Decode.v
theories/Model/Session.v
theories/Model/Tools.v
theories/Model/Text.v
theories/Model/Tables.v
theories/Spec/SessionS.v
theories/Spec/ToolsS.v
theories/Spec/TablesS.v
theories/Proofs/ToolsP.v
theories/Proofs/ToolsF.v
theories/Proofs/LevelX.v
theories/Proofs/SessionX.v
theories/Proofs/ToolsX.v
theories/Proofs/TextP.v
theories/Proofs/TablesP.v
theories/Proofs/TablesX.v
theories/Proofs/TablesO.v
theories/Props/P11_Tools.v
theories/Props/P12_Session.v
theories/Props/P13_Tables.v
theories/Model/Cli.v
theories/Spec/CliS.v
theories/Proofs/CliP.v
theories/Proofs/CliX.v
theories/Proofs/CliL.v
theories/Props/P14_Cli.v
theories/Proofs/RunX.v
theories/Model/CliDecode.v
theories/Model/ErrorText.v
theories/Model/Device.v
theories/Model/Opj.v
theories/Model/Programs.v
theories/Model/Demo.v
theories/Spec/DecodeTextS.v
theories/Spec/ErrorS.v
theories/Spec/ProgramsS.v
theories/Spec/DemoS.v
theories/Spec/DeviceS.v
theories/Spec/OpjS.v
theories/Proofs/DecodeTextX.v
theories/Proofs/ErrorX.v
theories/Proofs/ProgramsX.v
theories/Proofs/DemoX.v
theories/Proofs/AgreeP.v
theories/Proofs/DeviceX.v
theories/Proofs/OpjX.v
theories/Props/P15_Programs.v
theories/Proofs/CoordsX.v
theories/Props/P16_Coords.v
theories/Props/P17_Demo.v
theories/Props/P18_Device.v
theories/Props/P19_Opj.v
theories/Model/Word.v
theories/Spec/WordS.v
theories/Proofs/WordX.v
theories/Props/P20_Word.v
theories/Model/Memory.v
theories/Spec/MemoryS.v
theories/Proofs/MemoryX.v
theories/Proofs/MemoryR.v
theories/Props/P21_Memory.v
theories/Model/WordDecode.v
theories/Proofs/NearP.v
theories/Proofs/WordDecodeX.v
theories/Proofs/WordDecodeF.v
theories/Proofs/WordShort.v
theories/Props/P22_WordDecode.v
theories/Model/WordGrid.v
theories/Proofs/WordGridX.v
theories/Props/P23_WordGrid.v
theories/Model/Browser.v
theories/Spec/BrowserS.v
theories/Proofs/BrowserX.v
theories/Props/P24_Browser.v
theories/Spec/OrderS.v
theories/Proofs/OrderX.v
theories/Props/P25_Order.v
theories/Spec/ProfileS.v
theories/Proofs/ProfileP.v
theories/Proofs/ProfileD.v
theories/Proofs/ProfileG.v
theories/Proofs/ProfileT.v
theories/Props/P26_Profile.v
theories/Model/MemoryC.v
theories/Spec/MemoryCS.v
theories/Proofs/MemoryCP.v
theories/Proofs/MemoryCF.v
theories/Proofs/MemoryCX.v
theories/Proofs/MemoryCB.v
theories/Props/P27_MemoryC.v
theories/Model/OpjMemory.v
theories/Spec/OpjMemoryS.v
theories/Proofs/OpjMemoryX.v
theories/Props/P28_OpjMemory.v
theories/Spec/LocalS.v
theories/Proofs/LocalP.v
theories/Proofs/LocalX.v
theories/Proofs/LocalD.v
theories/Props/P29_Local.v
theories/Spec/CutS.v
theories/Proofs/CutP.v
theories/Proofs/CutM.v
theories/Proofs/CutX.v
theories/Proofs/CutF.v
theories/Props/P30_Cut.v
theories/Spec/JoinS.v
theories/Proofs/JoinX.v
theories/Proofs/JoinY.v
theories/Proofs/JoinR.v
theories/Proofs/JoinQ.v
theories/Proofs/JoinF.v
theories/Props/P31_Join.v
theories/Proofs/SplitX.v
theories/Proofs/SplitF.v
theories/Props/P32_Split.v
theories/Proofs/StartF.v
theories/Props/P33_Start.v
