-Q theories Verif

theories/Base.v
theories/Num.v
theories/Order.v
theories/Float64.v
theories/Binary64.v
theories/BaseLemmas.v
theories/Coordinates.v
theories/Utilities.v
theories/Spec.v
theories/CoordinatesProofs.v
theories/Properties_Coordinates.v
theories/Domains.v
theories/DomainsProofs.v
theories/UtilitiesProofs.v
theories/Features.v
theories/FeaturesProofs.v
theories/Properties_Domains.v
theories/Properties_Utilities.v
theories/Loads.v
theories/LoadsSpec.v
theories/LoadsProofs.v
theories/LoadsSim.v
theories/LoadsHybrid.v
theories/LoadsSynth.v
theories/Properties_Loads.v
theories/Report.v
theories/Properties_Report.v
theories/Ghe.v
theories/GheSpec.v
theories/GheProofs.v
theories/Properties_Ghe.v
theories/GFun.v
theories/GFunSpec.v
theories/GFunProofs.v
theories/Properties_GFun.v
theories/Radial.v
theories/RadialSpec.v
theories/RadialProofs.v
theories/RadialGrid.v
theories/RadialConcave.v
theories/Properties_Radial.v
theories/Bhe.v
theories/Equiv.v
theories/EquivSpec.v
theories/EquivProofs.v
theories/Properties_Equiv.v
theories/Export.v
theories/Design.v
theories/Search.v
theories/SearchSpec.v
theories/SearchProofs.v
theories/SearchTheorems.v
theories/SearchNested.v
theories/SearchZoned.v
theories/Properties_Search.v
theories/BinaryGrid.v
theories/BinaryDomains.v
theories/BinaryZoned.v
theories/Properties_Float.v
theories/DesignProofs.v
theories/Properties_Design.v
theories/Properties_Zoned.v
theories/Properties_FloatDesign.v
theories/Properties_FloatZoned.v
theories/Properties_Export.v
theories/System.v
theories/SystemSpec.v
theories/SystemProofs.v
theories/Properties_System.v
theories/Properties_Peaks.v
theories/Properties_Blocks.v
theories/Program.v
theories/ProgramProofs.v
theories/Properties_Program.v
theories/Properties_Delivered.v
theories/Scripts.v
theories/Properties_Scripts.v
theories/InvarianceSpec.v
theories/InvarianceProofs.v
theories/MirrorProofs.v
theories/Properties_Invariance.v
theories/Properties_Limits.v
theories/Properties_Outcome.v
theories/Session.v
theories/SessionProofs.v
theories/Properties_Session.v
theories/PlaceSpec.v
theories/PlaceProofs.v
theories/TurnSpec.v
theories/TurnProofs.v
theories/Properties_Place.v
theories/Files.v
theories/Properties_Files.v
theories/Library.v
theories/LibraryProofs.v
theories/Properties_Library.v
theories/Properties_Settings.v
theories/ScaleSpec.v
theories/ScaleProofs.v
theories/Properties_Scale.v
theories/Properties_ZonedOutcome.v
theories/ReferenceLoads.v
theories/ReferenceTests.v
theories/Properties_Reference.v
theories/Printing.v
theories/Properties_Printing.v
theories/Properties_Heights.v
theories/ExchangerScripts.v
theories/Properties_ExchangerScripts.v
theories/Properties_Land.v
theories/ProportionSpec.v
theories/ProportionProofs.v
theories/Properties_Proportion.v
theories/Properties_Period.v
theories/Figures.v
theories/Properties_Figures.v
