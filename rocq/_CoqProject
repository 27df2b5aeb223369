-Q theories Verif
theories/Base.v
theories/Types.v
theories/Token.v
theories/Emitter.v
theories/Factory.v
theories/Backstop.v
theories/PoolReserve.v
theories/PoolUser.v
theories/PoolHealth.v
theories/PoolAuction.v
theories/PoolSubmit.v
theories/PoolEmis.v
theories/PoolAdmin.v
theories/World.v
theories/Facts.v
theories/XMove.v
theories/Spec.v
theories/FrameFacts.v
theories/PropsEmitter.v
theories/PoolFrame.v
theories/PoolCfg.v
theories/PropsAdmin.v
theories/PoolAccrue.v
theories/AuctionFacts.v
theories/PoolTrace.v
theories/PoolInv.v
theories/PoolSim.v
theories/PoolReq.v
theories/PoolHF.v
theories/PoolOps.v
theories/PoolLiq.v
theories/PoolReach.v
theories/PoolTx.v
theories/PropsPool1.v
theories/PropsPool2.v
theories/PropsPool3.v
theories/PropsPool4.v
theories/BackMoves.v
theories/BackInv.v
theories/BackEmis.v
theories/PropsBackstop.v
theories/PropsBackstop2.v
theories/PropsBackstop3.v
theories/Scenario.v
theories/PropsBackstop4.v
theories/PropsBackstop5.v
theories/ExamplesBackstop.v
theories/PropsPool5.v
theories/PropsPool6.v
theories/PropsPool7.v
theories/PropsPool8.v
theories/PropsPool9.v
theories/ScenarioPool.v
theories/ExamplesPool.v
theories/PoolEmisInv.v
theories/PoolEmisTx.v
theories/PropsPool10.v
theories/PoolSolv.v
theories/PropsPool11.v
theories/PropsPool12.v
theories/PoolLive.v
theories/PropsPool13.v
theories/PropsPool14.v
theories/ExamplesPool2.v
theories/PropsPool15.v
theories/PropsPool16.v
theories/ExamplesPool3.v
theories/PropsPool17.v
theories/PropsPool18.v
theories/PropsPool19.v
theories/ExamplesPool4.v
theories/TestsReserve.v
theories/TestsAuction.v
theories/TestsPool.v
theories/TestsEmis.v
theories/TestsBackstop.v
theories/TestsConfig.v
theories/TestsAuction2.v
theories/PropsAdmin2.v
theories/PropsAdmin3.v
theories/ExamplesAdmin.v
theories/PropsPool20.v
theories/ExamplesPool5.v
theories/PropsBackstop6.v
theories/PropsBackstop7.v
theories/PropsBackstop8.v
theories/ExamplesBackstop2.v
theories/PropsPool21.v
theories/ExamplesPool6.v
theories/PropsPool22.v
theories/ExamplesPool7.v
theories/PropsPool23.v
theories/ExamplesPool8.v
theories/PropsPool24.v
theories/PropsPool25.v
theories/PropsPool26.v
theories/ExamplesPool9.v
theories/PropsPool27.v
theories/ExamplesPool10.v
theories/PropsToken.v
theories/ExamplesToken.v
theories/PropsPool28.v
theories/ExamplesPool11.v
theories/PropsPool29.v
theories/ExamplesPool12.v
theories/PropsPool30.v
theories/ExamplesPool13.v
theories/PropsPool31.v
theories/PropsBackstop9.v
theories/PropsPool32.v
theories/PropsPool33.v
theories/ExamplesPool14.v
theories/PropsAdmin4.v
theories/ExamplesAdmin2.v
theories/PropsPool34.v
theories/ExamplesPool15.v
theories/PropsBackstop10.v
theories/PropsBackstop11.v
theories/ExamplesBackstop3.v
theories/PropsBackstop12.v
theories/ExamplesBackstop4.v
theories/PropsBackstop13.v
theories/PropsPool35.v
theories/ExamplesPool16.v
theories/PropsPool36.v
theories/ExamplesPool17.v
theories/PropsBackstop14.v
theories/ExamplesBackstop5.v
theories/Events.v
theories/PropsEvents1.v
theories/PropsEvents2.v
theories/PropsEvents3.v
theories/ExamplesEvents.v
theories/TestsSuite.v
theories/PropsPool37.v
theories/ExamplesPool18.v
theories/Ttl.v
theories/PropsTtl.v
theories/PropsTtl2.v
theories/ExamplesTtl.v
theories/PropsBackstop15.v
theories/ExamplesBackstop6.v
theories/PropsEvents4.v
theories/ExamplesEvents2.v
theories/PropsEvents5.v
theories/ExamplesEvents3.v
theories/PropsEvents6.v
theories/ExamplesEvents4.v
theories/PropsPool38.v
theories/ExamplesPool19.v
theories/PropsPool39.v
theories/ExamplesPool20.v
theories/PropsPool40.v
theories/ExamplesPool21.v
theories/PropsPool41.v
theories/ExamplesPool22.v
theories/PropsPool42.v
theories/ExamplesPool23.v
theories/PropsPool43.v
theories/ExamplesPool24.v
theories/PropsPool44.v
theories/ExamplesPool25.v
