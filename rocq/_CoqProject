-Q theories Verif
theories/Base/Fl.v
theories/Base/FlFacts.v
theories/Base/Py.v
theories/Base/Trig.v
theories/Base/Series.v
theories/Model/Atmosphere.v
theories/Model/IrradTables.v
theories/Model/Irradiance.v
theories/Model/IrradDecomp.v
theories/Spec/DocTables.v
theories/Spec/Geometry.v
theories/Spec/Decomposition.v
theories/Proofs/IrradGeom.v
theories/Proofs/IrradSky.v
theories/Proofs/IrradDispatch.v
theories/Props/PIrradiance1.v
theories/Proofs/Decomp.v
theories/Spec/BestIterate.v
theories/Proofs/Gti.v
theories/Spec/DirintBins.v
theories/Proofs/Dirint.v
theories/Proofs/Atmos.v
theories/Props/PIrradiance2.v
theories/Props/PAtmosphere.v
theories/Model/Shading.v
theories/Model/Tracking.v
theories/Spec/TrackerGeometry.v
theories/Proofs/TrackGeom.v
theories/Proofs/Track.v
theories/Proofs/Slope.v
theories/Props/PTracking.v
theories/Model/Inverter.v
theories/Spec/InverterSpec.v
theories/Proofs/Invert.v
theories/Props/PInverter.v
theories/Model/Snow.v
theories/Model/Soiling.v
theories/Spec/SeriesSpec.v
theories/Proofs/SnowSoil.v
theories/Props/PSnowSoil.v
theories/Base/Round.v
theories/Model/Tools.v
theories/Spec/ToolsSpec.v
theories/Proofs/ToolsP.v
theories/Props/PTools.v
theories/Model/Iam.v
theories/Spec/Optics.v
theories/Spec/IamFit.v
theories/Proofs/IamP.v
theories/Proofs/IamCoat.v
theories/Proofs/IamFitP.v
theories/Props/PIam.v
theories/Model/Temperature.v
theories/Spec/ThermalSpec.v
theories/Proofs/TemperatureP.v
theories/Props/PTemperature.v
theories/Model/Spectrum.v
theories/Model/Pvsystem.v
theories/Model/System.v
theories/Spec/PvSpec.v
theories/Proofs/PvsystemP.v
theories/Props/PPvsystem.v
theories/Spec/PerArraySpec.v
theories/Proofs/SystemP.v
theories/Props/PSystem.v
theories/Model/ModelChain.v
theories/Spec/ChainSpec.v
theories/Proofs/ChainP.v
theories/Proofs/ChainW.v
theories/Proofs/ChainN.v
theories/Proofs/ChainV.v
theories/Spec/PipelineSpec.v
theories/Proofs/ChainPipe.v
theories/Proofs/ChainX.v
theories/Props/PChain.v
theories/Spec/ArraySpec.v
theories/Spec/SapmSpec.v
theories/Spec/SpectralSpec.v
theories/Spec/RowShading.v
theories/Proofs/ArrayP.v
theories/Props/PArray.v
theories/Proofs/SapmP.v
theories/Proofs/SpectralP.v
theories/Props/PSpectrum.v
theories/Proofs/RowShade.v
theories/Proofs/Passias.v
theories/Props/PShading.v
theories/Model/SingleDiode.v
theories/Model/Bifacial.v
theories/Spec/BifacialSpec.v
theories/Spec/ShedsSpec.v
theories/Proofs/BifRow.v
theories/Proofs/BifShade.v
theories/Proofs/BifGround.v
theories/Proofs/BifSky.v
theories/Proofs/BifStrings.v
theories/Proofs/BifMean.v
theories/Proofs/BifProps.v
theories/Proofs/Sheds.v
theories/Spec/DiodeSpec.v
theories/Proofs/Diode.v
theories/Proofs/LambertP.v
theories/Proofs/DiodeLW.v
theories/Proofs/DiodeSolve.v
theories/Props/PDiode.v
theories/Props/PBifacial.v
theories/Model/Clearsky.v
theories/Model/Pvarray.v
theories/Model/SolarPosition.v
theories/Model/SpaTables.v
theories/Model/Spa.v
theories/Model/Location.v
theories/Model/Scaling.v
theories/Spec/SpaSpec.v
theories/Spec/LocationSpec.v
theories/Spec/ScalingSpec.v
theories/Proofs/SpaP.v
theories/Proofs/SpaGeom.v
theories/Proofs/SpaRest.v
theories/Proofs/SpaRise.v
theories/Proofs/ScalingP.v
theories/Spec/SolarSpec.v
theories/Proofs/SolarP.v
theories/Proofs/EphemP.v
theories/Props/PSolar.v
theories/Props/PSpa.v
theories/Props/PLocation.v
theories/Props/PScaling.v
theories/Model/IvUtils.v
theories/Spec/IvSpec.v
theories/Model/Sde.v
theories/Model/Sdm.v
theories/Model/SdmSandia.v
theories/Model/SdmIec.v
theories/Model/Spectrl2Tables.v
theories/Model/Deprecation.v
theories/Base/Calendar.v
theories/Base/Strptime.v
theories/Base/PyStr.v
theories/Spec/TmySpec.v
theories/Model/Tmy.v
theories/Model/Stations.v
theories/Model/Bsrn.v
theories/Model/Pvgis.v
theories/Model/Web.v
theories/Props/PWeb.v
theories/Model/Cams.v
theories/Props/PCams.v
theories/Model/Services.v
theories/Props/PPsm4.v
theories/Props/PServices.v
theories/Model/Reverse.v
theories/Proofs/ReverseP.v
theories/Props/PReverse.v
theories/Model/Configs.v
theories/Props/PConfigs.v
theories/Model/Datetimes.v
theories/Props/PDatetimes.v
theories/Model/GtiDirint.v
theories/Props/PGti.v
theories/Model/Readers.v
theories/Props/PReaders.v
theories/Model/Localize.v
theories/Props/PLocalize.v
theories/Model/Panond.v
theories/Spec/PanondSpec.v
theories/Model/InverterFit.v
theories/Spec/InverterFitSpec.v
theories/Model/Spectrl2.v
theories/Proofs/IvP.v
theories/Proofs/SdeP.v
theories/Proofs/SdmP.v
theories/Proofs/SdmSandiaP.v
theories/Proofs/SdmLoops.v
theories/Props/PIvUtils.v
theories/Props/PSde.v
theories/Props/PSdm.v
theories/Props/PSdmSandia.v
theories/Props/PSdmExtract.v
theories/Props/PSdmIec.v
theories/Spec/Spectrl2Spec.v
theories/Proofs/Spectrl2P.v
theories/Props/PSpectrl2.v
theories/Props/PInverterFit.v
theories/Props/PTmy.v
theories/Props/PStations.v
theories/Props/PBsrn.v
theories/Props/PPvgis.v
theories/Props/PPanond.v
theories/Props/PDeprecation.v
theories/Spec/PvarraySpec.v
theories/Proofs/PvarrayP.v
theories/Spec/ClearskySpec.v
theories/Proofs/ClearskyP.v
theories/Proofs/ClearskyT.v
theories/Proofs/ClearskyB.v
theories/Proofs/ClearskyD.v
theories/Proofs/Disc.v
theories/Props/PDisc.v
theories/Props/PClearsky.v
theories/Props/PDetect.v
theories/Props/PPvarray.v
theories/Props/PSheds.v
theories/Model/Spectra.v
theories/Props/PSpectra.v
theories/Model/Shapes.v
theories/Props/PShapes.v
theories/Model/Types.v
theories/Props/PTypes.v
theories/Model/Requests.v
theories/Props/PRequests.v
theories/Model/WebDates.v
theories/Props/PWebDates.v
